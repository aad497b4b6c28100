(** Properties C187 (pvfactors_timeseries), C188 (the table of retrieve_sam), C189 (read_crn) and C190 (read_midc).  Model: Model/Readers.v. *)
From Coq Require Import ZArith Lia Reals Lra List String Ascii Bool.
From Verif Require Import Base.Fl Base.FlFacts Base.Py Base.PyStr Base.Calendar Base.Strptime Base.Round Model.Tools Model.Bsrn Model.Stations Model.Readers Props.PBsrn Props.PStations.
Import ListNotations.
Open Scope list_scope.
Open Scope Z_scope.

(** ** C187 *)
(** v given to each of n times: itself if it has n values, its single value for every time *)
Definition spread (v : list fl) (n : nat) (l : list fl) : Prop :=
  List.length l = n /\ ((exists x, v = [x] /\ forall i, (i < n)%nat -> nth_error l i = Some x) \/ (List.length v <> 1%nat /\ l = v)).
Lemma nth_error_ext' {A} (a b : list A) : (forall i, nth_error a i = nth_error b i) -> a = b.
Proof.
  revert b. induction a as [|x a IH]; intros [|y b] H; [reflexivity|discriminate (H 0%nat)|discriminate (H 0%nat)|].
  pose proof (H 0%nat) as H0. injection H0 as ->. f_equal. apply IH. intros i. exact (H (S i)).
Qed.
Lemma full_like_spec bad a v : nd_integer a = false -> nd_scalar a = false -> forall t,
  full_like bad a v = Ok t <-> nd_integer t = false /\ nd_scalar t = false /\ spread (nd_values v) (List.length (nd_values a)) (nd_values t).
Proof.
  intros I S0 t. unfold full_like, spread. rewrite I, S0. set (n := List.length (nd_values a)). destruct (nd_values v) as [|x [|y l]].
  - destruct (Nat.eqb_spec (List.length (@nil fl)) n) as [E|E]; cbn [bind].
    + split; [intros H; injection H as <-; cbn; repeat split; auto|]. intros (A & B & L & [(x & H & _)|(_ & H)]); [discriminate H|]. destruct t; cbn in *; subst; reflexivity.
    + split; [discriminate|]. intros (_ & _ & L & [(x & H & _)|(_ & H)]); [discriminate H|]. rewrite H in L. contradiction.
  - cbn [bind]. split.
    + intros H. injection H as <-. cbn. rewrite repeat_length. repeat split. left. exists x. split; [reflexivity|]. intros i Hi. rewrite (nth_error_nth' _ x) by (rewrite repeat_length; exact Hi). rewrite nth_repeat. reflexivity.
    + intros (A & B & L & [(x' & H & P)|(H & _)]); [|exfalso; apply H; reflexivity]. injection H as <-. destruct t as [ti ts tv]; cbn in *. subst ti ts.
      assert (E : tv = repeat x n); [|rewrite E; reflexivity]. apply nth_error_ext'. intros i. destruct (Nat.lt_ge_cases i n) as [Hi|Hi].
      * rewrite P by exact Hi. rewrite (nth_error_nth' _ x) by (rewrite repeat_length; exact Hi). rewrite nth_repeat. reflexivity.
      * rewrite !(proj2 (nth_error_None _ _)); [reflexivity|rewrite repeat_length; exact Hi|lia].
  - destruct (Nat.eqb_spec (List.length (x :: y :: l)) n) as [E|E]; cbn [bind].
    + split; [intros H; injection H as <-; cbn; repeat split; auto; try (right; split; [discriminate|reflexivity])|]. intros (A & B & L & [(z & H & _)|(_ & H)]); [discriminate H|]. destruct t; cbn in *; subst; reflexivity.
    + split; [discriminate|]. intros (_ & _ & L & [(z & H & _)|(_ & H)]); [discriminate H|]. rewrite H in L. contradiction.
Qed.

(** Python's l[i] *)
Definition at_index {A} (l : list A) (i : Z) (x : A) : Prop :=
  (0 <= i /\ nth_error l (Z.to_nat i) = Some x) \/ (i < 0 /\ nth_error (rev l) (Z.to_nat (- i - 1)) = Some x).
Lemma py_item_spec {A} (l : list A) i : (forall x, py_item l i = Ok x <-> at_index l i x) /\ (forall e, py_item l i = Err e -> e = IndexError).
Proof.
  assert (R : forall k x, nth_error (rev l) k = Some x -> (k < List.length l)%nat) by (intros k x H; rewrite <- rev_length; apply nth_error_Some; congruence).
  unfold py_item, at_index. set (n := List.length l). split.
  - intros x. destruct (Z.ltb_spec i 0) as [N|N].
    + replace (0 <=? i) with false by lia. cbn [andb orb]. destruct (Z.leb_spec (- Z.of_nat n) i) as [M|M].
      * assert (E : nth_error (rev l) (Z.to_nat (- i - 1)) = nth_error l (Z.to_nat (i + Z.of_nat n))).
        { destruct (nth_error l (Z.to_nat (i + Z.of_nat n))) as [y|] eqn:Y.
          - rewrite (nth_error_nth' (rev l) y) by (rewrite rev_length; fold n; lia). rewrite rev_nth by (fold n; lia). fold n. replace (n - S (Z.to_nat (- i - 1)))%nat with (Z.to_nat (i + Z.of_nat n)) by lia.
            rewrite (nth_error_nth _ _ y Y). reflexivity.
          - apply nth_error_None in Y. fold n in Y. lia. }
        rewrite E. destruct (nth_error l _) as [y|]; split; intros H.
        -- right. split; [exact N|]. congruence.
        -- destruct H as [[H _]|[_ H]]; [lia|congruence].
        -- discriminate H.
        -- destruct H as [[H _]|[_ H]]; [lia|discriminate H].
      * split; [discriminate|]. intros [[H _]|[_ H]]; [lia|]. apply R in H. fold n in H. lia.
    + replace (0 <=? i) with true by lia. cbn [andb orb]. rewrite orb_false_r. destruct (Z.ltb_spec i (Z.of_nat n)) as [M|M].
      * destruct (nth_error l _) as [y|]; split; intros H.
        -- left. split; [exact N|congruence].
        -- destruct H as [[_ H]|[H _]]; [congruence|lia].
        -- discriminate H.
        -- destruct H as [[_ H]|[H _]]; [discriminate H|lia].
      * split; [discriminate|]. intros [[_ H]|[H _]]; [|lia]. assert (Z.to_nat i < n)%nat by (unfold n; apply nth_error_Some; congruence). lia.
  - intros e. destruct (_ || _); [|congruence]. destruct (nth_error l _); congruence.
Qed.
Lemma Ok_inj {A} (x y : A) : Ok x = Ok y -> x = y.
Proof. congruence. Qed.
Section Pvfactors.
  Variable bad_cast : fl -> Z.
  Variables pvarray pvrow : Type.
  Variable ts_pvrows : pvarray -> list pvrow.
  Variable weighted : pvrow -> side -> string -> list fl.
  Variable engine : engine_call -> res pvarray.
  Notation run := (pvfactors_timeseries bad_cast pvarray pvrow ts_pvrows weighted engine).
  (** the engine gets the caller's values under their names, tilt and azimuth spread over the times; the results are, in this order, the incident irradiance in front and
      behind and the absorbed in front and behind of the observed row, at the times *)
Theorem C187_result : forall solar_azimuth zenith azimuth tilt axis_azimuth times dni dhi gcr height width albedo n_pvrows index rho_front rho_back band front back front_absorbed back_absorbed,
    nd_integer zenith = false -> nd_scalar zenith = false ->
    run solar_azimuth zenith azimuth tilt axis_azimuth times dni dhi gcr height width albedo n_pvrows index rho_front rho_back band = Ok (front, back, front_absorbed, back_absorbed) <->
    exists tilts azimuths p row,
      spread (nd_values tilt) (List.length (nd_values zenith)) tilts /\ spread (nd_values azimuth) (List.length (nd_values zenith)) azimuths /\
      engine {| ec_n_pvrows := n_pvrows; ec_axis_azimuth := axis_azimuth; ec_pvrow_height := height; ec_pvrow_width := width; ec_gcr := gcr; ec_rho_front := rho_front;
                ec_rho_back := rho_back; ec_horizon_band_angle := band; ec_timestamps := times; ec_dni := dni; ec_dhi := dhi; ec_solar_zenith := zenith;
                ec_solar_azimuth := solar_azimuth; ec_surface_tilt := {| nd_integer := false; nd_scalar := false; nd_values := tilts |};
                ec_surface_azimuth := {| nd_integer := false; nd_scalar := false; nd_values := azimuths |}; ec_albedo := albedo |} = Ok p /\
      at_index (ts_pvrows p) index row /\ (forall s q, In (s, q) [(Front, "qinc"); (Back, "qinc"); (Front, "qabs"); (Back, "qabs")]%string -> List.length (weighted row s q) = List.length times) /\
      front = combine times (weighted row Front "qinc") /\ back = combine times (weighted row Back "qinc") /\
      front_absorbed = combine times (weighted row Front "qabs") /\ back_absorbed = combine times (weighted row Back "qabs").
  Proof.
    intros saz z az tilt axis times dni dhi gcr h w alb np index rf rb band o1 o2 o3 o4 ZI ZS. unfold pvfactors_timeseries. pose proof (full_like_spec bad_cast z tilt ZI ZS) as FT. pose proof (full_like_spec bad_cast z az ZI ZS) as FA.
    set (n := List.length (nd_values z)) in *.
    destruct (full_like bad_cast z tilt) as [[ti ts tv]|e1] eqn:T; cbn [bind].
    2:{ split; [discriminate|]. intros (tilts & azs & p & r & A & _). destruct (FT {| nd_integer := false; nd_scalar := false; nd_values := tilts |}) as [_ F]. discriminate (F (conj eq_refl (conj eq_refl A))). }
    destruct (full_like bad_cast z az) as [[ai as_ av]|e2] eqn:A; cbn [bind].
    2:{ split; [discriminate|]. intros (tilts & azs & p & r & _ & B & _). destruct (FA {| nd_integer := false; nd_scalar := false; nd_values := azs |}) as [_ F]. discriminate (F (conj eq_refl (conj eq_refl B))). }
    destruct (proj1 (FT _) eq_refl) as (T1 & T2 & T3). destruct (proj1 (FA _) eq_refl) as (A1 & A2 & A3). cbn in T1, T2, T3, A1, A2, A3. subst ti ts ai as_.
    assert (TU : forall l, spread (nd_values tilt) n l -> l = tv).
    { intros l H. assert (E : Ok {| nd_integer := false; nd_scalar := false; nd_values := tv |} = Ok {| nd_integer := false; nd_scalar := false; nd_values := l |}) by (apply FT; cbn; auto). injection E as ->. reflexivity. }
    assert (AU : forall l, spread (nd_values az) n l -> l = av).
    { intros l H. assert (E : Ok {| nd_integer := false; nd_scalar := false; nd_values := av |} = Ok {| nd_integer := false; nd_scalar := false; nd_values := l |}) by (apply FA; cbn; auto). injection E as ->. reflexivity. }
    clear FT FA. destruct (engine _) as [p|e3] eqn:P; cbn [bind].
    2:{ split; [discriminate|]. intros (tilts & azs & p & r & B1 & B2 & B3 & _). rewrite (TU _ B1), (AU _ B2) in B3. congruence. }
    unfold build_report. destruct (py_item_spec (ts_pvrows p) index) as [PS _]. destruct (py_item (ts_pvrows p) index) as [row|e4] eqn:R; cbn [bind].
    2:{ split; [discriminate|]. intros (tilts & azs & p' & r & B1 & B2 & B3 & B4 & _). rewrite (TU _ B1), (AU _ B2) in B3. assert (p' = p) by congruence. subst p'. apply PS in B4. discriminate B4. }
    assert (RU : forall r, at_index (ts_pvrows p) index r -> r = row) by (intros r H; apply PS in H; congruence). assert (RR : at_index (ts_pvrows p) index row) by (apply PS; reflexivity).
    cbn [forallb snd]. destruct (Nat.eqb_spec (List.length (weighted row Back "qinc")) (List.length times)) as [L1|L1]; destruct (Nat.eqb_spec (List.length (weighted row Front "qinc")) (List.length times)) as [L2|L2];
      destruct (Nat.eqb_spec (List.length (weighted row Back "qabs")) (List.length times)) as [L3|L3]; destruct (Nat.eqb_spec (List.length (weighted row Front "qabs")) (List.length times)) as [L4|L4]; cbn [andb].
    2-16: (split; [discriminate|]; intros (tilts & azs & p' & r & B1 & B2 & B3 & B4 & B5 & _); rewrite (TU _ B1), (AU _ B2) in B3; assert (p' = p) by congruence; subst p'; rewrite (RU _ B4) in B5;
           exfalso; pose proof (B5 Front "qinc"%string ltac:(cbn; auto)); pose proof (B5 Back "qinc"%string ltac:(cbn; auto)); pose proof (B5 Front "qabs"%string ltac:(cbn; auto)); pose proof (B5 Back "qabs"%string ltac:(cbn; auto)); contradiction).
    unfold getitem. cbn [lookup String.eqb Ascii.eqb Bool.eqb bind]. split.
    - intros H. apply Ok_inj in H. apply pair_equal_spec in H. destruct H as [H <-]. apply pair_equal_spec in H. destruct H as [H <-]. apply pair_equal_spec in H. destruct H as [<- <-].
      exists tv, av, p, row. split; [exact T3|]. split; [exact A3|]. split; [exact P|]. split; [exact RR|]. split; [|auto].
      intros s q [E|[E|[E|[E|[]]]]]; apply pair_equal_spec in E; destruct E as [<- <-]; assumption.
    - intros (tilts & azs & p' & r & B1 & B2 & B3 & B4 & _ & -> & -> & -> & ->). rewrite (TU _ B1), (AU _ B2) in B3. assert (p' = p) by congruence. subst p'. rewrite (RU _ B4). reflexivity.
  Qed.
  (** the only errors besides the engine's own *)
Theorem C187_errors : forall solar_azimuth zenith azimuth tilt axis_azimuth times dni dhi gcr height width albedo n_pvrows index rho_front rho_back band e,
    run solar_azimuth zenith azimuth tilt axis_azimuth times dni dhi gcr height width albedo n_pvrows index rho_front rho_back band = Err e ->
    e = ValueError \/ e = IndexError \/ exists call, engine call = Err e.
  Proof.
    intros saz z az tilt axis times dni dhi gcr h w alb np index rf rb band e. assert (F : forall v e, full_like bad_cast z v = Err e -> e = ValueError).
    { intros v e'. unfold full_like. destruct (nd_values v) as [|x [|y l]]; [|discriminate|]; destruct (nd_scalar z); cbn [bind]; try congruence; destruct (Nat.eqb _ _); cbn [bind]; congruence. }
    unfold pvfactors_timeseries. destruct (full_like bad_cast z tilt) as [t|] eqn:T; cbn [bind]; [|intros H; injection H as <-; left; apply (F _ _ T)].
    destruct (full_like bad_cast z az) as [a|] eqn:A; cbn [bind]; [|intros H; injection H as <-; left; apply (F _ _ A)].
    destruct (engine _) as [p|] eqn:P; cbn [bind]; [|intros H; injection H as <-; right; right; eauto].
    unfold build_report. destruct (py_item (ts_pvrows p) index) as [row|] eqn:R; cbn [bind]; [|intros H; injection H as <-; right; left; apply (proj2 (py_item_spec _ _) _ R)].
    destruct (forallb _ _); [discriminate|]. intros H. injection H as <-. auto.
  Qed.
  (** Finding: with solar zeniths that are integers the tilt is cut to an integer: 10.9 degrees is calculated as 10 *)
Theorem C187_integer_zenith_refuted : forall solar_azimuth zenith azimuth axis_azimuth times dni dhi gcr height width albedo n_pvrows index rho_front rho_back band,
    nd_integer zenith = true ->
    let scalar x := {| nd_integer := false; nd_scalar := true; nd_values := [#x] |} in
    run solar_azimuth zenith azimuth (scalar 10.9%R) axis_azimuth times dni dhi gcr height width albedo n_pvrows index rho_front rho_back band =
    run solar_azimuth zenith azimuth (scalar 10%R) axis_azimuth times dni dhi gcr height width albedo n_pvrows index rho_front rho_back band.
  Proof.
    intros saz z az axis times dni dhi gcr h w alb np index rf rb band ZI scalar. unfold pvfactors_timeseries.
    assert (E : full_like bad_cast z (scalar 10.9%R) = full_like bad_cast z (scalar 10%R)); [|rewrite E; reflexivity].
    unfold full_like, scalar. cbn [nd_values bind]. rewrite ZI. assert (M : forall x n, map (to_integer bad_cast) (repeat x n) = repeat (to_integer bad_cast x) n) by (intros x n; induction n as [|n IH]; [reflexivity|cbn [repeat map]; rewrite IH; reflexivity]).
    rewrite !M. assert (T : to_integer bad_cast #10.9 = to_integer bad_cast #10); [|rewrite T; reflexivity]. unfold to_integer, ftrunc. rewrite !Rltb_f by lra.
    assert (I : forall x, (10 <= x < 11)%R -> Int_part x = 10) by (intros x H; pose proof (Round.Int_part_bounds x) as [B1 B2]; assert (Int_part x < 11) by (apply lt_IZR; lra); assert (9 < Int_part x) by (apply lt_IZR; lra); lia). rewrite !I by lra. reflexivity.
  Qed.
End Pvfactors.
Print Assumptions C187_result.
Print Assumptions C187_errors.
Print Assumptions C187_integer_zenith_refuted.
Example C187_example : exists out,
  pvfactors_timeseries (fun _ => 0) (list (list fl)) (list fl) (fun p => p) (fun r _ _ => r) (fun c => Ok (repeat (nd_values (ec_surface_tilt c)) (Z.to_nat (ec_n_pvrows c))))
    {| nd_integer := false; nd_scalar := false; nd_values := [#100; #200] |} {| nd_integer := false; nd_scalar := false; nd_values := [#50; #60] |}
    {| nd_integer := false; nd_scalar := true; nd_values := [#180] |} {| nd_integer := false; nd_scalar := true; nd_values := [#20] |} #90 [0; 60]
    {| nd_integer := false; nd_scalar := false; nd_values := [#500; #600] |} {| nd_integer := false; nd_scalar := false; nd_values := [#100; #110] |} #0.4 #2 #1 #0.2 3 (-2) #0.03 #0.05 #15 = Ok out /\
  fst (fst (fst out)) = [(0, #20); (60, #20)].
Proof. eexists. split; reflexivity. Qed.

(** ** C188 *)
Definition bracketing (c : ascii) : Prop := c = " "%char \/ c = "["%char \/ c = "]"%char.
Fixpoint brackets (s : string) : Prop := match s with EmptyString => True | String c s' => bracketing c /\ brackets s' end.
Definition unbracketed (t : string) : Prop :=
  t = ""%string \/ ((exists c t', t = String c t' /\ ~ bracketing c) /\ exists c t', t = (t' ++ String c "")%string /\ ~ bracketing c).
(** a text of coefficients: words separated by white space, within brackets and blanks, which may be missing *)
Definition coefficients_text (ws : list string) (s : string) : Prop :=
  exists a t b, s = (a ++ t ++ b)%string /\ brackets a /\ brackets b /\ unbracketed t /\ words_text ws t.
Lemma is_bracket_spec c : is_bracket c = true <-> bracketing c.
Proof. unfold is_bracket, bracketing. rewrite !orb_true_iff, !Ascii.eqb_eq. tauto. Qed.
Lemma lstrip_brackets a t : brackets a -> lstrip is_bracket (a ++ t) = lstrip is_bracket t.
Proof. induction a as [|c a IH]; [reflexivity|]. cbn [brackets append lstrip]. intros [H K]. rewrite (proj2 (is_bracket_spec c) H). apply IH, K. Qed.
Lemma lstrip_all a : brackets a -> lstrip is_bracket a = ""%string.
Proof. intros H. rewrite <- (sapp_nil a). rewrite lstrip_brackets by exact H. reflexivity. Qed.
Lemma rstrip_all b : brackets b -> rstrip is_bracket b = ""%string.
Proof. induction b as [|c b IH]; [reflexivity|]. cbn [brackets rstrip]. intros [H K]. rewrite (IH K), (proj2 (is_bracket_spec c) H). reflexivity. Qed.
Lemma rstrip_keep c t b : ~ bracketing c -> brackets b -> rstrip is_bracket ((t ++ String c "") ++ b) = (t ++ String c "")%string.
Proof.
  intros N B. assert (NB : is_bracket c = false) by (destruct (is_bracket c) eqn:E; [apply is_bracket_spec in E; contradiction|reflexivity]). induction t as [|d t IH].
  - cbn [append rstrip]. rewrite (rstrip_all b B), NB. reflexivity.
  - cbn [append rstrip]. cbn [append] in IH. rewrite IH. destruct t; reflexivity.
Qed.
Lemma coefficients_words ws s : coefficients_text ws s -> split_ws (rstrip is_bracket (lstrip is_bracket s)) = ws.
Proof.
  intros (a & t & b & -> & A & B & U & W). rewrite lstrip_brackets by exact A. destruct U as [->|[(c & t1 & E & C) (d & t2 & E2 & D)]].
  - cbn [append]. rewrite lstrip_all by exact B. cbn [rstrip]. apply split_words in W. exact W.
  - rewrite lstrip_not; [|rewrite E; cbn; destruct (is_bracket c) eqn:Q; [apply is_bracket_spec in Q; contradiction|reflexivity]]. rewrite E2, rstrip_keep by assumption. rewrite <- E2. apply split_words, W.
Qed.
Lemma words_blank c ws t : is_ws c = true -> words_text ws t -> words_text ws (String c t).
Proof.
  intros C H. destruct H as [s B|s w B W|s w d ws t B W D H]; [constructor; cbn; auto|change (String c (s ++ w)) with (String c s ++ w)%string; constructor; cbn; auto|].
  change (String c (s ++ w ++ String d t)) with (String c s ++ w ++ String d t)%string. constructor; cbn; auto.
Qed.
Lemma words_letter c d t ws : is_ws c = false -> is_ws d = false -> words_text ws (String d t) -> exists w ws', ws = w :: ws' /\ words_text (String c w :: ws') (String c (String d t)).
Proof.
  intros C D H. assert (WC : forall w, word w -> word (String c w)) by (intros w [_ W]; split; [discriminate|cbn; auto]). inversion H as [s B E1 E2|s w B W E1 E2|s w e ws' t' B W E H' E1 E2].
  - subst. destruct B as [B _]. congruence.
  - destruct s as [|x s]; [|cbn in E2; injection E2 as -> _; destruct B as [B _]; congruence]. cbn [append] in *. subst w. exists (String d t), []. split; [congruence|].
    apply (wt_last "" (String c (String d t))); [exact I|apply WC, W].
  - destruct s as [|x s]; [|cbn in E2; injection E2 as -> _; destruct B as [B _]; congruence]. cbn [append] in *. exists w, ws'. split; [first [reflexivity|exact E1|symmetry; exact E1]|].
    apply (wt_cons "" (String c w) e ws' t'); [exact I|apply WC, W|exact E|exact H'].
Qed.
Lemma words_exist : forall n t, (String.length t <= n)%nat -> exists ws, words_text ws t.
Proof.
  induction n as [|n IH]; intros [|c t] L; try (exists []; constructor; exact I); [cbn in L; lia|]. cbn in L. destruct (is_ws c) eqn:C.
  - destruct (IH t) as [ws W]; [lia|]. exists ws. apply words_blank; assumption.
  - destruct t as [|d t]; [exists [String c ""]; apply (wt_last "" (String c "")); [exact I|split; [discriminate|cbn; auto]]|]. destruct (is_ws d) eqn:D.
    + destruct (IH t) as [ws W]; [cbn in L; lia|]. exists (String c "" :: ws). apply (wt_cons "" (String c "") d ws t); [exact I|split; [discriminate|cbn; auto]|exact D|exact W].
    + destruct (IH (String d t)) as [ws W]; [lia|]. destruct (words_letter c d t ws C D W) as (w & ws' & _ & W'). eauto.
Qed.
Lemma coefficients_exist s : exists ws, coefficients_text ws s.
Proof.
  assert (NB : forall c, is_bracket c = false -> ~ bracketing c) by (intros c H K; apply is_bracket_spec in K; congruence).
  assert (LS : exists a t, s = (a ++ t)%string /\ brackets a /\ (t = ""%string \/ exists c t', t = String c t' /\ ~ bracketing c)).
  { induction s as [|c s (a & t & -> & A & T)]; [exists ""%string, ""%string; cbn; auto|]. destruct (is_bracket c) eqn:B.
    - exists (String c a), t. split; [reflexivity|]. split; [cbn; split; [apply is_bracket_spec, B|exact A]|exact T].
    - exists ""%string, (String c (a ++ t)). split; [reflexivity|]. split; [exact I|]. right. eauto. }
  destruct LS as (a & t & -> & A & T).
  assert (RS : forall t, exists r b, t = (r ++ b)%string /\ brackets b /\ (r = ""%string \/ exists c r', r = (r' ++ String c "")%string /\ ~ bracketing c)).
  { clear -NB. induction t as [|c t (r & b & -> & B & R)]; [exists ""%string, ""%string; cbn; auto|]. destruct R as [->|(d & r' & -> & D)].
    - destruct (is_bracket c) eqn:Q.
      + exists ""%string, (String c b). split; [reflexivity|]. split; [cbn; split; [apply is_bracket_spec, Q|exact B]|auto].
      + exists (String c ""), b. split; [reflexivity|]. split; [exact B|]. right. exists c, ""%string. split; [reflexivity|apply NB, Q].
    - exists (String c (r' ++ String d "")), b. split; [reflexivity|]. split; [exact B|]. right. exists d, (String c r'). split; [reflexivity|exact D]. }
  destruct (RS t) as (r & b & -> & B & R). destruct (words_exist _ r (le_n _)) as [ws W]. exists ws, a, r, b. split; [reflexivity|]. split; [exact A|]. split; [exact B|]. split; [|exact W].
  destruct R as [->|R]; [left; reflexivity|]. right. split; [|exact R]. destruct T as [T|(c & t' & T & C)].
  - destruct R as (d & r' & -> & D). destruct r'; discriminate T.
  - destruct r as [|e r]; [destruct R as (d & r' & E & D); destruct r'; discriminate E|]. cbn in T. injection T as -> _. eauto.
Qed.
(** blanks of a name *)
Definition underscored (a b : string) : Prop :=
  String.length a = String.length b /\ forall i c, String.get i a = Some c -> String.get i b = Some (if Ascii.eqb c " " then "_"%char else c).
Lemma blanks_spec a : underscored a (blanks_to_underscores a).
Proof.
  induction a as [|c a [L H]]; [split; [reflexivity|intros [|i] c H; discriminate H]|]. cbn [blanks_to_underscores]. split; [cbn; f_equal; exact L|].
  intros [|i] d G; cbn [String.get] in *; [injection G as ->; reflexivity|]. apply H. exact G.
Qed.
Section Sam.
  Variable py_float : string -> option fl.
  Variable normalize : list string -> list string.
  (** what a cell becomes *)
  Definition sam_cell (name : string) (a b : samcell) : Prop :=
    if String.eqb name "ADRCoefficients" then exists s ws l, a = SText s /\ coefficients_text ws s /\ Forall2 (fun w x => py_float w = Some x) ws l /\ b = SList l else b = a.
  (** every named product has every value of its row, under the name with underscores; the coefficients of the ADR model become lists of numbers *)
Theorem C188_table : forall names data rows,
    Forall2 (fun c r => underscored (fst c) (fst r) /\ Forall2 (sam_cell (fst r)) (snd c) (snd r)) data rows ->
    parse_raw_sam_df py_float normalize names data = Ok (normalize names, rows).
  Proof.
    intros names data rows H. unfold parse_raw_sam_df.
    assert (M : forall ws l, Forall2 (fun w x => py_float w = Some x) ws l -> mapM (fun w => match py_float w with Some x => Ok x | None => Err ValueError end) ws = Ok l).
    { induction 1 as [|w x ws l W _ IH]; [reflexivity|]. cbn [mapM]. rewrite W, IH. reflexivity. }
    assert (U : forall a b, underscored a b -> blanks_to_underscores a = b).
    { intros a b [L G]. destruct (blanks_spec a) as [L' G']. assert (E : forall x y, String.length x = String.length y -> (forall i c, String.get i x = Some c -> String.get i y = Some c) -> x = y).
      { clear. induction x as [|c x IH]; intros [|d y] L G; try discriminate L; [reflexivity|]. pose proof (G 0%nat c eq_refl) as H. cbn in H. injection H as ->. f_equal. apply IH; [injection L; auto|]. intros i e K. exact (G (S i) e K). }
      apply E; [congruence|]. intros i c K. destruct (String.get i a) as [x|] eqn:GA.
      - rewrite (G' _ _ GA) in K. rewrite (G _ _ GA). exact K.
      - exfalso. assert (forall x i, String.get i x = None <-> (String.length x <= i)%nat) as GL. { clear. induction x as [|c x IH]; intros [|i]; cbn; [split; [lia|reflexivity]|split; [lia|reflexivity]|split; [discriminate|lia]|rewrite IH; lia]. }
        apply GL in GA. assert (String.get i (blanks_to_underscores a) = None) by (apply GL; lia). congruence. }
    cut (mapM (fun r => if String.eqb (fst r) "ADRCoefficients" then let* l := mapM (adr_coefficients py_float) (snd r) in Ok (fst r, l) else Ok r) (map (fun c => (blanks_to_underscores (fst c), snd c)) data) = Ok rows);
      [intros ->; reflexivity|].
    induction H as [|c r data rows [N C] _ IH]; [reflexivity|]. cbn [map mapM]. rewrite IH. cbn [fst snd]. rewrite (U _ _ N). unfold sam_cell in C. destruct r as [name cells]. cbn [fst snd] in *.
    destruct (String.eqb name "ADRCoefficients").
    - assert (E : mapM (adr_coefficients py_float) (snd c) = Ok cells).
      { clear -C M. induction C as [|a b l l' H _ IH]; [reflexivity|]. cbn [mapM]. rewrite IH. destruct H as (s & ws & q & -> & W & F & ->). cbn [adr_coefficients]. rewrite (coefficients_words _ _ W), (M _ _ F). reflexivity. }
      rewrite E. reflexivity.
    - assert (E : snd c = cells) by (clear -C; induction C as [|a b l l' H _ IH]; [reflexivity|]; congruence). rewrite E. reflexivity.
  Qed.
  (** the only failures: a word that is no number (ValueError), a missing cell (AttributeError), both only of ADR coefficients *)
Theorem C188_errors : forall names data e, parse_raw_sam_df py_float normalize names data = Err e ->
    exists cells c, In ("ADRCoefficients"%string, cells) data /\ In c cells /\
      ((e = AttributeError /\ forall s, c <> SText s) \/ (e = ValueError /\ exists s ws w, c = SText s /\ coefficients_text ws s /\ In w ws /\ py_float w = None)).
  Proof.
    intros names data e. unfold parse_raw_sam_df. destruct (mapM _ _) as [r|e'] eqn:M; cbn [bind]; [discriminate|]. intros H. injection H as ->.
    assert (ME : forall {A B} (f : A -> res B) l e, mapM f l = Err e -> exists x, In x l /\ f x = Err e).
    { intros A B f. induction l as [|x l IH]; intros e0; [discriminate|]. cbn [mapM]. destruct (f x) eqn:F; cbn [bind]; [|intros H; injection H as <-; exists x; split; [left; reflexivity|exact F]].
      destruct (mapM f l) eqn:Q; cbn [bind]; [discriminate|]. intros H. injection H as <-. destruct (IH _ eq_refl) as (y & I & Y). exists y. split; [right; exact I|exact Y]. }
    apply ME in M. destruct M as (x & I & F). apply in_map_iff in I. destruct I as ([name cells] & <- & I). cbn [fst snd] in F.
    destruct (String.eqb_spec (blanks_to_underscores name) "ADRCoefficients") as [N|N]; [|discriminate F].
    destruct (mapM (adr_coefficients py_float) cells) as [l|e'] eqn:Q; cbn [bind] in F; [discriminate F|]. injection F as ->. apply ME in Q. destruct Q as (c & IC & F).
    assert (NE : name = "ADRCoefficients"%string).
    { assert (K : forall a b, blanks_to_underscores a = b -> (forall i, String.get i b <> Some "_"%char) -> a = b).
      { clear. induction a as [|c a IH]; intros b <- H; [reflexivity|]. cbn [blanks_to_underscores] in *. destruct (Ascii.eqb_spec c " ") as [->|].
        - exfalso. apply (H 0%nat). reflexivity.
        - f_equal. apply (IH _ eq_refl). intros i. exact (H (S i)). }
      apply (K name _ N). intros i. do 15 (destruct i as [|i]; [discriminate|]). destruct i; discriminate. }
    subst name. exists cells, c. split; [exact I|]. split; [exact IC|]. destruct c as [s|y|y]; cbn [adr_coefficients] in F.
    - right. destruct (mapM _ (split_ws _)) as [q|e'] eqn:Q; cbn [bind] in F; [discriminate F|]. injection F as ->. apply ME in Q. destruct Q as (w & W & V).
      destruct (py_float w) eqn:P; [discriminate V|]. injection V as <-. split; [reflexivity|]. destruct (coefficients_exist s) as [ws C]. rewrite (coefficients_words _ _ C) in W. exists s, ws, w. auto.
    - left. injection F as <-. split; [reflexivity|discriminate].
    - left. injection F as <-. split; [reflexivity|discriminate].
  Qed.
  (** Finding: coefficients separated by commas, as described in a comment of the code, are a ValueError *)
Theorem C188_commas_refuted : forall names, py_float "1.33," = None -> parse_raw_sam_df py_float normalize names [("ADRCoefficients", [SText " 1.33, 2.11, 3.12"])]%string = Err ValueError.
  Proof. intros names H. unfold parse_raw_sam_df. cbn -[split_ws]. change (split_ws _) with ["1.33,"; "2.11,"; "3.12"]%string. cbn [mapM]. rewrite H. reflexivity. Qed.
End Sam.
Print Assumptions C188_table.
Print Assumptions C188_errors.
Print Assumptions C188_commas_refuted.
Definition ex_float (w : string) : option fl := if String.eqb w "1.33" then Some #1.33 else if String.eqb w "2.11" then Some #2.11 else None.
Example C188_example : parse_raw_sam_df ex_float (fun l => l) ["A"]%string [("Pac max", [SNum #5]); ("ADRCoefficients", [SText " [1.33 2.11]"])]%string =
  Ok (["A"], [("Pac_max", [SNum #5]); ("ADRCoefficients", [SList [#1.33; #2.11]])])%string.
Proof.
  apply (C188_table ex_float (fun l => l)). constructor; [|constructor; [|constructor]].
  - split; [apply blanks_spec|]. constructor; [reflexivity|constructor].
  - split; [apply (blanks_spec "ADRCoefficients")|]. constructor; [|constructor]. exists " [1.33 2.11]"%string, ["1.33"; "2.11"]%string, [#1.33; #2.11]. split; [reflexivity|]. split; [|split; [|reflexivity]].
    + exists " ["%string, "1.33 2.11"%string, "]"%string. split; [reflexivity|]. split; [cbn; unfold bracketing; tauto|]. split; [cbn; unfold bracketing; tauto|]. split.
      * right. split; [exists "1"%char, ".33 2.11"%string|exists "1"%char, "1.33 2.1"%string]; (split; [reflexivity|]); intros [H|[H|H]]; discriminate H.
      * apply (wt_cons "" "1.33" " " ["2.11"%string] "2.11"); [exact I|split; [discriminate|cbn; auto 10]|reflexivity|]. apply (wt_last "" "2.11"); [exact I|split; [discriminate|cbn; auto 10]].
    + repeat constructor.
Qed.

(** ** C189 *)
(** the columns of a file: what they hold and the number that marks a missing value *)
Inductive crn_kind := CInt | CNumber | CVersion | CText.
Definition crn_spec : list (string * crn_kind * option Z) :=
  [("WBANNO", CInt, None); ("UTC_DATE", CInt, None); ("UTC_TIME", CInt, None); ("LST_DATE", CInt, None); ("LST_TIME", CInt, None); ("CRX_VN", CVersion, None);
   ("LONGITUDE", CNumber, None); ("LATITUDE", CNumber, None); ("AIR_TEMPERATURE", CNumber, Some (-9999)); ("PRECIPITATION", CNumber, Some (-9999));
   ("SOLAR_RADIATION", CNumber, Some (-99999)); ("SR_FLAG", CInt, None); ("SURFACE_TEMPERATURE", CNumber, Some (-9999)); ("ST_TYPE", CText, None); ("ST_FLAG", CInt, None);
   ("RELATIVE_HUMIDITY", CNumber, Some (-9999)); ("RH_FLAG", CInt, None); ("SOIL_MOISTURE_5", CNumber, Some (-99)); ("SOIL_TEMPERATURE_5", CNumber, Some (-9999));
   ("WETNESS", CInt, Some (-9999)); ("WET_FLAG", CInt, None); ("WIND_1_5", CNumber, Some (-99)); ("WIND_FLAG", CInt, None)]%string.
(** the pvlib name of a column *)
Definition crn_pvlib (a b : string) : Prop :=
  In (a, b) [("LONGITUDE", "longitude"); ("LATITUDE", "latitude"); ("AIR_TEMPERATURE", "temp_air"); ("SOLAR_RADIATION", "ghi"); ("SR_FLAG", "ghi_flag"); ("RELATIVE_HUMIDITY", "relative_humidity");
             ("RH_FLAG", "relative_humidity_flag"); ("WIND_1_5", "wind_speed"); ("WIND_FLAG", "wind_speed_flag")]%string \/
  a = b /\ ~ In a ["LONGITUDE"; "LATITUDE"; "AIR_TEMPERATURE"; "SOLAR_RADIATION"; "SR_FLAG"; "RELATIVE_HUMIDITY"; "RH_FLAG"; "WIND_1_5"; "WIND_FLAG"]%string.
(** six NUL characters *)
Definition nul_characters : string := string_of_list_ascii (repeat Ascii.zero 6).
Definition numbered {A} (l : list A) : list (nat * A) := combine (seq 0 (List.length l)) l.
(** the lines with at least one value *)
Inductive kept : list (list (option string)) -> list (list (option string)) -> Prop :=
| kept_nil : kept [] []
| kept_blank r l k : Forall (fun o => o = None) r -> kept l k -> kept (r :: l) k
| kept_row r l k : ~ Forall (fun o => o = None) r -> kept l k -> kept (r :: l) (r :: k).
Lemma kept_filter l : kept l (filter (fun r => existsb (fun o => match o with Some _ => true | None => false end) r) l).
Proof.
  induction l as [|r l IH]; [constructor|]. cbn [filter]. destruct (existsb _ r) eqn:E.
  - apply kept_row; [|exact IH]. intros F. apply existsb_exists in E. destruct E as (o & I & H). rewrite Forall_forall in F. rewrite (F _ I) in H. discriminate.
  - apply kept_blank; [|exact IH]. apply Forall_forall. intros [s|] I; [|reflexivity]. assert (existsb (fun o : option string => match o with Some _ => true | None => false end) r = true) by (apply existsb_exists; exists (Some s); auto). congruence.
Qed.
Lemma kept_fun l k : kept l k -> k = filter (fun r => existsb (fun o => match o with Some _ => true | None => false end) r) l.
Proof.
  intros H. pose proof (kept_filter l) as G. revert G. generalize (filter (fun r => existsb (fun o => match o with Some _ => true | None => false end) r) l). induction H; intros k' G; inversion G; subst; try contradiction; [reflexivity|auto|f_equal; auto].
Qed.
Section Crn.
  Variable py_float : string -> option fl.
  Variable py_int : string -> option Z.
  (** the value of a cell *)
  Definition crn_value (k : crn_kind) (mark : option Z) (o : option string) (c : rcell) : Prop :=
    match k, o with
    | CInt, None => False
    | CInt, Some s => exists z, py_int s = Some z /\ (mark <> Some z /\ c = RInt z \/ mark = Some z /\ c = RNum NaN)
    | CNumber, None => c = RNum NaN
    | CNumber, Some s => exists x, py_float s = Some x /\ ((forall m, mark = Some m -> x <> Fin (IZR m)) /\ c = RNum x \/ exists m, mark = Some m /\ x = Fin (IZR m) /\ c = RNum NaN)
    | CVersion, None => c = RText "nan"
    | CVersion, Some s => s <> nul_characters /\ c = RText s \/ s = nul_characters /\ c = RNum NaN
    | CText, None => c = RNum NaN
    | CText, Some s => c = RText s
    end.
  (** the time of a row, from the columns UTC_DATE (YYYYMMDD) and UTC_TIME (HHMM, 5 being five past midnight) *)
  Definition crn_time (r : list (option string)) (t : Z) : Prop :=
    exists sd d st hm, nth 1 r None = Some sd /\ py_int sd = Some d /\ nth 2 r None = Some st /\ py_int st = Some hm /\ crn_row (d, hm) /\ t = instant (as_date d) 0 (minutes hm).
  Definition crn_column (rows : list (list (option string))) (mapped : bool) (spec : nat * (string * crn_kind * option Z)) (c : string * list rcell) : Prop :=
    let '(j, (name, kind, mark)) := spec in
    (if mapped then crn_pvlib name (fst c) else fst c = name) /\ Forall2 (fun r v => crn_value kind mark (nth j r None) v) rows (snd c).

  Definition kind_type (k : crn_kind) : crn_dtype := match k with CInt => DInt | CNumber => DFloat | CVersion => DStr | CText => DObj end.
  (** the model's tables agree with the one above *)
  Lemma crn_tables : map (fun s => (fst (fst s), kind_type (snd (fst s)))) crn_spec = crn_columns.
  Proof. reflexivity. Qed.
  Lemma crn_marks : Forall (fun s => let '(name, kind, mark) := s in match kind with CVersion => lookup name crn_nan = Some (-99999) | _ => lookup name crn_nan = mark end /\ (kind = CText -> mark = None)) crn_spec.
  Proof. repeat constructor; discriminate. Qed.
  Lemma crn_names : Forall (fun s => forall b, crn_pvlib (fst (fst s)) b <-> b = match lookup (fst (fst s)) crn_variable_map with Some n => n | None => fst (fst s) end) crn_spec.
  Proof.
    unfold crn_spec. repeat (constructor; [intros b; unfold crn_pvlib; cbn [fst In]; match goal with |- context [lookup ?a ?m] => let v := eval vm_compute in (lookup a m) in change (lookup a m) with v end; cbv beta iota; split;
      [intros [H|[<- H]]; [repeat (destruct H as [H|H]; [first [discriminate H|injection H as <-; reflexivity]|]); contradiction|first [reflexivity|exfalso; apply H; tauto]]
      |intros ->; first [left; tauto|right; split; [reflexivity|]; intros H; repeat (destruct H as [H|H]; [discriminate H|]); contradiction]]|]). constructor.
  Qed.
  Lemma crn_cell_spec name kind mark o c : match kind with CVersion => lookup name crn_nan = Some (-99999) | _ => lookup name crn_nan = mark end /\ (kind = CText -> mark = None) ->
    (exists c0, crn_cast py_float py_int (kind_type kind) o = Ok c0 /\ c = crn_replace name c0) <-> crn_value kind mark o c.
  Proof.
    intros [L T]. unfold crn_replace, crn_value. change nul_characters with six_nuls. destruct kind; cbn [kind_type crn_cast]; rewrite L.
    - destruct o as [s|]; [|split; [intros (x & H & _); discriminate H|contradiction]]. destruct (py_int s) as [z|]; [|split; [intros (x & H & _); discriminate H|intros (z & H & _); discriminate H]]. split.
      + intros (x & H & ->). injection H as <-. exists z. split; [reflexivity|]. destruct mark as [m|]; [|left; split; [discriminate|reflexivity]]. destruct (Z.eqb_spec z m) as [->|N]; [right; auto|left; split; [congruence|reflexivity]].
      + intros (x & H & K). injection H as <-. exists (RInt z). split; [reflexivity|]. destruct mark as [m|]; [|destruct K as [[_ K]|[K _]]; [exact K|discriminate K]]. destruct (Z.eqb_spec z m) as [->|N]; destruct K as [[K1 K2]|[K1 K2]]; congruence.
    - assert (FE : forall x m, (feqb x (Fin (IZR m)) = true <-> x = Fin (IZR m)) /\ x = x).
      { intros x m. split; [|reflexivity]. split.
        - destruct x; cbn; try discriminate. unfold Reqb. destruct (Req_EM_T r (IZR m)) as [->|]; [reflexivity|discriminate].
        - intros ->. cbn. unfold Reqb. destruct (Req_EM_T (IZR m) (IZR m)); congruence. }
      destruct o as [s|].
      + destruct (py_float s) as [x|]; [|split; [intros (y & H & _); discriminate H|intros (z & H & _); discriminate H]]. split.
        * intros (y & H & ->). injection H as <-. exists x. split; [reflexivity|]. destruct mark as [m|]; [|left; split; [discriminate|reflexivity]]. destruct (feqb x (Fin (IZR m))) eqn:E.
          -- right. exists m. split; [reflexivity|]. split; [apply (proj1 (proj1 (FE x m))), E|reflexivity].
          -- left. split; [|reflexivity]. intros m' H Q. injection H as <-. apply (proj2 (proj1 (FE x m))) in Q. congruence.
        * intros (y & H & K). injection H as <-. exists (RNum x). split; [reflexivity|]. destruct mark as [m|]; [|destruct K as [[_ K]|(m & K & _)]; [exact K|discriminate K]]. destruct (feqb x (Fin (IZR m))) eqn:E.
          -- apply (proj1 (proj1 (FE x m))) in E. destruct K as [[K _]|(m' & _ & _ & K)]; [destruct (K m eq_refl E)|exact K].
          -- destruct K as [[_ K]|(m' & M & Q & _)]; [exact K|]. injection M as <-. apply (proj2 (proj1 (FE x m))) in Q. congruence.
      + split; [intros (y & H & ->); injection H as <-|intros ->; exists (RNum NaN); split; [reflexivity|]]; destruct mark; reflexivity.
    - destruct o as [s|].
      + split.
        * intros (y & H & ->). injection H as <-. destruct (String.eqb_spec s six_nuls); auto.
        * intros H. exists (RText s). split; [reflexivity|]. destruct (String.eqb_spec s six_nuls); destruct H as [[H1 H2]|[H1 H2]]; congruence.
      + split; [intros (y & H & ->); injection H as <-; reflexivity|intros ->; exists (RText "nan"); split; reflexivity].
    - rewrite (T eq_refl). destruct o as [s|]; (split; [intros (y & H & ->); injection H as <-; reflexivity|intros ->; eexists; split; reflexivity]).
  Qed.
  Lemma F2_in {A B} (P Q : A -> B -> Prop) l l' : (forall x y, In x l -> P x y -> Q x y) -> Forall2 P l l' -> Forall2 Q l l'.
  Proof. intros H F. induction F; constructor; [apply H; [left; reflexivity|assumption]|apply IHF; intros; apply H; [right; assumption|assumption]]. Qed.
  Lemma F2_iff {A B} (P Q : A -> B -> Prop) l : (forall x y, In x l -> P x y <-> Q x y) -> forall l', Forall2 P l l' <-> Forall2 Q l l'.
  Proof. intros H l'. split; apply F2_in; intros x y I K; apply (H x y I); exact K. Qed.
  Lemma F2_map_l {A B C} (P : B -> C -> Prop) (f : A -> B) l l' : Forall2 P (map f l) l' <-> Forall2 (fun x y => P (f x) y) l l'.
  Proof. revert l'. induction l as [|x l IH]; intros [|y l']; cbn [map]; split; intros H; inversion H; subst; constructor; try assumption; apply IH; assumption. Qed.
  Lemma F2_map_r {A B C} (P : A -> C -> Prop) (f : B -> C) l l' : Forall2 P l l' -> forall m, l' = map f m -> Forall2 (fun x y => P x (f y)) l m.
  Proof. induction 1; intros [|z m] E; try discriminate E; [constructor|]. cbn [map] in E. injection E as -> ->. constructor; [assumption|apply IHForall2; reflexivity]. Qed.
  Lemma F2_ex {A B C} (P : A -> B -> Prop) (f : B -> C) l k : Forall2 (fun x z => exists y, P x y /\ z = f y) l k <-> exists m, Forall2 P l m /\ k = map f m.
  Proof.
    split.
    - induction 1 as [|x z l k (y & H & ->) _ (m & F & ->)]; [exists []; split; [constructor|reflexivity]|]. exists (y :: m). split; [constructor; assumption|reflexivity].
    - intros (m & F & ->). induction F; cbn [map]; constructor; eauto.
  Qed.
  Lemma In_numbered {A} (l : list A) s : In s (numbered l) -> In (snd s) l.
  Proof. unfold numbered. destruct s. intros H. apply in_combine_r in H. exact H. Qed.
  (** the result: the lines with a value, in order, with times in UTC and every cell read; and it is the only one *)
Theorem C189_result : forall lines mapped index table,
    (forall r s d, In r lines -> nth 1 r None = Some s -> py_int s = Some d -> 10000000 <= d) ->
    (read_crn py_float py_int lines mapped = Ok (index, table) <->
     exists rows, kept lines rows /\ Forall2 crn_time rows index /\ Forall2 (crn_column rows mapped) (numbered crn_spec) table).
  Proof.
    intros lines mapped index table PRE. set (K := filter (fun r => existsb (fun o => match o with Some _ => true | None => false end) r) lines).
    assert (PREK : forall r s d, In r K -> nth 1 r None = Some s -> py_int s = Some d -> 10000000 <= d) by (intros r s d I; apply PRE; unfold K in I; apply filter_In in I; tauto).
    assert (COLS : forall data, (exists d0, mapM (fun jc => let '(j, (name, t)) := jc in let* col := mapM (fun r => crn_cast py_float py_int t (nth j r None)) K in Ok (name, col)) (combine (seq 0 23) crn_columns) = Ok d0 /\
        data = map (fun c => (fst c, map (crn_replace (fst c)) (snd c))) d0) <-> Forall2 (crn_column K false) (numbered crn_spec) data).
    { intros data. rewrite <- crn_tables. assert (CM : combine (seq 0 23) (map (fun s : string * crn_kind * option Z => (fst (fst s), kind_type (snd (fst s)))) crn_spec) = map (fun js => (fst js, (fst (fst (snd js)), kind_type (snd (fst (snd js)))))) (numbered crn_spec)) by reflexivity.
      rewrite CM. clear CM. setoid_rewrite mapM_Forall2. rewrite <- F2_ex. rewrite F2_map_l. apply F2_iff. intros [j [[name kind] mark]] [n col] I. cbn [fst snd]. apply In_numbered in I. cbn [snd] in I.
      pose proof (proj1 (Forall_forall _ _) crn_marks _ I) as M. cbv beta iota in M. unfold crn_column. cbn [fst snd]. split.
      - intros ((n0 & c0) & E & Q). destruct (mapM _ K) as [c|] eqn:EC; [|discriminate E]. cbn [bind] in E. injection E as <- <-. cbn [fst snd] in Q. injection Q as -> ->. split; [reflexivity|].
        apply mapM_Forall2 in EC. assert (F : Forall2 (fun r v => exists y, crn_cast py_float py_int (kind_type kind) (nth j r None) = Ok y /\ v = crn_replace name y) K (map (crn_replace name) c)) by (apply F2_ex; eauto).
        eapply F2_in; [|exact F]. intros r v _. apply crn_cell_spec, M.
      - intros [-> F]. assert (G : Forall2 (fun r v => exists y, crn_cast py_float py_int (kind_type kind) (nth j r None) = Ok y /\ v = crn_replace name y) K col) by (eapply F2_in; [|exact F]; intros r v _; apply (crn_cell_spec name kind mark), M).
        apply F2_ex in G. destruct G as (c & G & ->). apply mapM_Forall2 in G. exists (name, c). rewrite G. split; reflexivity. }
    assert (TIMES : forall data, Forall2 (crn_column K false) (numbered crn_spec) data ->
       forall ix, (let* dates := getcol data "UTC_DATE" in let* times := getcol data "UTC_TIME" in let* dates := mapM as_int dates in let* times := mapM as_int times in crn_index (combine dates times)) = Ok ix <-> Forall2 crn_time K ix).
    { intros data F ix. change (numbered crn_spec) with ((0%nat, ("WBANNO"%string, CInt, @None Z)) :: (1%nat, ("UTC_DATE"%string, CInt, @None Z)) :: (2%nat, ("UTC_TIME"%string, CInt, @None Z)) :: skipn 3 (numbered crn_spec)) in F.
      inversion F as [|? [n0 c0] ? ? C0 F0]; subst. inversion F0 as [|? [n1 c1] ? ? C1 F0']; subst. inversion F0' as [|? [n2 c2] ? ? C2 _]; subst.
      unfold crn_column in C0, C1, C2. destruct C0 as [E0 _]. destruct C1 as [E1 F1]. destruct C2 as [E2 F2]. cbn [fst snd] in *. subst n0 n1 n2. clear F F0 F0'. cbn [getcol]. unfold getcol. cbn [lookup String.eqb Ascii.eqb Bool.eqb bind].
      assert (INTS : forall j c, Forall2 (fun r v => crn_value CInt None (nth j r None) v) K c -> exists l, mapM as_int c = Ok l /\ Forall2 (fun r z => exists s, nth j r None = Some s /\ py_int s = Some z) K l).
      { clearbody K. clear -py_int. intros j c F. induction F as [|r v k c H F (l & E & G)]; [exists []; split; [reflexivity|constructor]|]. unfold crn_value in H. destruct (nth j r None) as [s|] eqn:N; [|contradiction]. destruct H as (z & P & [[_ ->]|[H _]]); [|discriminate H].
        exists (z :: l). split; [cbn [mapM as_int bind]; rewrite E; reflexivity|]. constructor; [exists s; auto|]. exact G. }
      destruct (INTS _ _ F1) as (l1 & -> & G1). destruct (INTS _ _ F2) as (l2 & -> & G2). cbn [bind].
      assert (BIG : Forall (fun '(d, _) => 10000000 <= d) (combine l1 l2)).
      { apply Forall_forall. intros [d t] I. apply in_combine_l in I. revert I. clear -G1 PREK. induction G1 as [|r z k l (s & N & P) G IH]; intros I; [destruct I|]. destruct I as [<-|I]; [apply (PREK r s); [left; reflexivity|exact N|exact P]|].
        apply IH; [|exact I]. intros r' s' d' I'. apply PREK. right. exact I'. }
      destruct (C150_crn _ BIG) as [C1 C2]. clear BIG. assert (ROWS : (Forall crn_row (combine l1 l2) /\ map (fun '(d, t) => instant (as_date d) 0 (minutes t)) (combine l1 l2) = ix) <-> Forall2 crn_time K ix).
      { clear -G1 G2. revert l2 ix G2. induction G1 as [|r d k l1 (sd & N1 & P1) G1 IH]; intros l2 ix G2; inversion G2 as [|? t ? l2' (st & N2 & P2) G2']; subst; cbn [combine map].
        - split; [intros [_ <-]; constructor|intros H; inversion H; split; [constructor|reflexivity]].
        - split.
          + intros [F <-]. inversion F; subst. constructor; [exists sd, d, st, t; auto 8|]. apply IH with (l2 := l2'); auto.
          + intros H. inversion H as [|? t0 ? ix' (sd' & d' & st' & t' & A1 & A2 & A3 & A4 & A5 & ->) H']; subst. rewrite N1 in A1. injection A1 as <-. rewrite P1 in A2. injection A2 as <-. rewrite N2 in A3. injection A3 as <-. rewrite P2 in A4. injection A4 as <-.
            destruct (proj2 (IH _ _ G2') H') as [F <-]. split; [constructor; assumption|reflexivity]. }
      rewrite <- ROWS. split.
      - intros E. assert (D : Forall crn_row (combine l1 l2) \/ ~ Forall crn_row (combine l1 l2)).
        { clear. induction (combine l1 l2) as [|[d t] l IH]; [left; constructor|]. assert (DEC : crn_row (d, t) \/ ~ crn_row (d, t)) by (unfold crn_row, hhmm; destruct (valid_dec (as_date d)); lia || tauto).
          destruct DEC as [O|O], IH as [IH|IH]; [left; constructor; assumption|right|right|right]; intros F; inversion F; contradiction. }
        destruct D as [D|D]; [|rewrite (C2 D) in E; discriminate E]. rewrite (C1 D) in E. injection E as <-. auto.
      - intros [D <-]. apply C1, D. }
    assert (REN : forall data, Forall2 (crn_column K false) (numbered crn_spec) data -> Forall2 (crn_column K true) (numbered crn_spec) (rename_columns crn_variable_map data)).
    { unfold rename_columns. intros data F. assert (G : forall l, (forall s, In s l -> In (snd s) crn_spec) -> forall data, Forall2 (crn_column K false) l data ->
        Forall2 (crn_column K true) l (map (fun c => (match lookup (fst c) crn_variable_map with Some n => n | None => fst c end, snd c)) data)).
      { clear. intros l I d F. induction F as [|[j [[name kind] mark]] [n col] l d [E H] F IH]; cbn [map]; [constructor|]. constructor; [|apply IH; intros s Hs; apply I; right; exact Hs]. cbn [fst snd] in *. subst n. split; [|exact H].
        cbn [fst]. pose proof (I _ (or_introl eq_refl)) as J. cbn [snd] in J. pose proof (proj1 (Forall_forall _ _) crn_names _ J) as J2. cbn [fst] in J2. apply (proj2 (J2 _)). reflexivity. }
      apply G; [intros s; apply In_numbered|exact F]. }
    assert (UNREN : forall data', Forall2 (crn_column K true) (numbered crn_spec) data' -> exists data, Forall2 (crn_column K false) (numbered crn_spec) data /\ data' = rename_columns crn_variable_map data).
    { intros d' F. assert (G : forall l, (forall s, In s l -> In (snd s) crn_spec) -> forall data', Forall2 (crn_column K true) l data' -> exists data, Forall2 (crn_column K false) l data /\ data' = rename_columns crn_variable_map data).
      { clear. intros l I d F. induction F as [|[j [[name kind] mark]] [n col] l d [E H] F IH]; [exists []; split; [constructor|reflexivity]|]. destruct IH as (data & G & ->); [intros s Hs; apply I; right; exact Hs|]. cbn [fst snd] in *.
        exists ((name, col) :: data). split; [constructor; [split; [reflexivity|exact H]|exact G]|]. cbn [rename_columns map fst snd]. f_equal. f_equal. pose proof (I _ (or_introl eq_refl)) as J. cbn [snd] in J. pose proof (proj1 (Forall_forall _ _) crn_names _ J) as J2. cbn [fst] in J2. apply (proj1 (J2 _)), E. }
      apply G; [intros s; apply In_numbered|exact F]. }
    unfold read_crn. fold K. split.
    - intros E. exists K. split; [apply kept_filter|]. destruct (mapM _ (combine (seq 0 23) crn_columns)) as [d0|] eqn:M; [|discriminate E]. cbn [bind] in E. set (data := map _ d0) in E. assert (D : Forall2 (crn_column K false) (numbered crn_spec) data) by (apply COLS; eauto).
      pose proof (TIMES _ D) as T. destruct (getcol data "UTC_DATE") as [c1|]; [|discriminate E]. cbn [bind] in E, T. destruct (getcol data "UTC_TIME") as [c2|]; [|discriminate E]. cbn [bind] in E, T. destruct (mapM as_int c1) as [l1|]; [|discriminate E]. cbn [bind] in E, T.
      destruct (mapM as_int c2) as [l2|]; [|discriminate E]. cbn [bind] in E, T. destruct (crn_index (combine l1 l2)) as [ix|]; [|discriminate E]. cbn [bind] in E. injection E as <- <-. split; [apply T; reflexivity|]. destruct mapped; [apply REN, D|exact D].
    - intros (rows & KR & FT & FC). apply kept_fun in KR. fold K in KR. subst rows.
      assert (X : exists data, Forall2 (crn_column K false) (numbered crn_spec) data /\ table = (if mapped then rename_columns crn_variable_map data else data)) by (destruct mapped; [apply UNREN, FC|eauto]).
      destruct X as (data & D & ->). pose proof (proj2 (TIMES _ D index) FT) as T. apply COLS in D. destruct D as (d0 & -> & ->). cbn [bind]. set (data := map _ d0) in *.
      destruct (getcol data "UTC_DATE") as [c1|]; [|discriminate T]. cbn [bind] in *. destruct (getcol data "UTC_TIME") as [c2|]; [|discriminate T]. cbn [bind] in *. destruct (mapM as_int c1) as [l1|]; [|discriminate T]. cbn [bind] in *.
      destruct (mapM as_int c2) as [l2|]; [|discriminate T]. cbn [bind] in *. rewrite T. reflexivity.
  Qed.
  (** every failure is a ValueError *)
Theorem C189_errors : forall lines mapped e,
    (forall r s d, In r lines -> nth 1 r None = Some s -> py_int s = Some d -> 10000000 <= d) -> read_crn py_float py_int lines mapped = Err e -> e = ValueError.
  Proof.
    intros lines mapped e PRE. unfold read_crn. set (K := filter _ lines).
    assert (ME : forall {A B} (f : A -> res B) l e, (forall x e, f x = Err e -> e = ValueError) -> mapM f l = Err e -> e = ValueError).
    { intros A B f l e0 H. induction l as [|x l IH]; [discriminate|]. cbn [mapM]. destruct (f x) eqn:F; cbn [bind]; [|intros Q; injection Q as <-; apply (H _ _ F)]. destruct (mapM f l); cbn [bind]; [discriminate|]. intros Q. injection Q as <-. apply IH. reflexivity. }
    assert (CE : forall t o e, crn_cast py_float py_int t o = Err e -> e = ValueError) by (intros [] [s|] e0; cbn; try discriminate; try congruence; destruct (py_int s), (py_float s); congruence).
    destruct (mapM _ (combine (seq 0 23) crn_columns)) as [d0|e0] eqn:M; cbn [bind].
    - apply mapM_Forall2 in M. inversion M as [|? [n0 c0] ? ? E0 M0]; subst. inversion M0 as [|? [n1 c1] ? ? E1 M1]; subst. inversion M1 as [|? [n2 c2] ? ? E2 _]; subst. clear M M0 M1. cbv beta iota in E0, E1, E2.
      destruct (mapM _ K) as [x0|] in E0; [|discriminate E0]. destruct (mapM _ K) as [x1|] in E1; [|discriminate E1]. destruct (mapM _ K) as [x2|] in E2; [|discriminate E2]. cbn [bind] in *. injection E0 as <- <-. injection E1 as <- <-. injection E2 as <- <-.
      cbn [map fst snd]. unfold getcol. cbn [lookup String.eqb Ascii.eqb Bool.eqb bind]. assert (AE : forall c e, as_int c = Err e -> e = ValueError) by (intros [] e0; cbn; congruence).
      destruct (mapM as_int (map (crn_replace "UTC_DATE") x1)) as [i1|] eqn:I1; cbn [bind]; [|intros Q; injection Q as <-; apply (ME _ _ _ _ _ AE I1)].
      destruct (mapM as_int (map (crn_replace "UTC_TIME") x2)) as [i2|] eqn:I2; cbn [bind]; [|intros Q; injection Q as <-; apply (ME _ _ _ _ _ AE I2)].
      destruct (crn_index (combine i1 i2)) as [ix|] eqn:IX; cbn [bind]; [discriminate|]. intros Q. injection Q as <-. unfold crn_index in IX. apply ME in IX; [exact IX|]. intros [d t] e9 Y. unfold ymd_time in Y.
      destruct (strptime _ _) as [l|]; [|congruence]. repeat (destruct l as [|? l]; try congruence). destruct (valid_dateb _); congruence.
    - intros Q. injection Q as <-. apply ME in M; [exact M|]. intros [j [n t]] e1. destruct (mapM _ K) eqn:MK; cbn [bind]; [discriminate|]. intros Q. injection Q as <-. apply ME in MK; [exact MK|]. intros r e2. apply CE.
  Qed.
  (** Finding: the mark -99999 of the data logger's version stays: the column is text *)
Theorem C189_version_refuted : forall r mapped index table, nth 5 r None = Some "-99999"%string -> (forall s d, nth 1 r None = Some s -> py_int s = Some d -> 10000000 <= d) ->
     read_crn py_float py_int [r] mapped = Ok (index, table) -> nth_error table 5 = Some ("CRX_VN"%string, [RText "-99999"]).
  Proof.
    intros r mapped index table N P H. apply C189_result in H; [|intros r' s d [<-|[]]; apply P]. destruct H as (rows & K & _ & F).
    assert (rows = [r]). { inversion K as [|? ? ? B K'|? ? ? B K']; subst; inversion K'; subst; [|reflexivity]. exfalso. rewrite Forall_forall in B. assert (I : In (nth 5 r None) r) by (destruct (nth_in_or_default 5 r None) as [I|E]; [exact I|congruence]). apply B in I. congruence. }
    subst rows. change (numbered crn_spec) with (firstn 5 (numbered crn_spec) ++ (5%nat, ("CRX_VN"%string, CVersion, @None Z)) :: skipn 6 (numbered crn_spec)) in F. apply Forall2_app_inv_l in F. destruct F as (a & b & FA & FB & ->).
    inversion FB as [|? [n c] ? ? C5 _]; subst. unfold crn_column in C5. destruct C5 as [E1 E2]. cbn [fst snd] in *. assert (L : List.length a = 5%nat) by (apply Forall2_length in FA; rewrite <- FA; reflexivity). rewrite nth_error_app2 by lia. rewrite L. cbn [nth_error Nat.sub].
    assert (NN : n = "CRX_VN"%string). { destruct mapped; [|exact E1]. destruct E1 as [E1|[E1 _]]; [|symmetry; exact E1]. cbn in E1. exfalso. repeat (destruct E1 as [E1|E1]; [discriminate E1|]). exact E1. }
    inversion E2 as [|? v ? ? V E3]; subst. inversion E3; subst. rewrite N in V. destruct V as [[_ ->]|[V _]]; [reflexivity|discriminate V].
  Qed.
End Crn.
Print Assumptions C189_result.
Print Assumptions C189_errors.
Print Assumptions C189_version_refuted.
Definition ex_crn_int (s : string) : option Z :=
  lookup s [("53131", 53131); ("20190101", 20190101); ("20181231", 20181231); ("1605", 1605); ("5", 5); ("0", 0); ("-9999", -9999)]%string.
Definition ex_crn_float (s : string) : option fl := lookup s [("-111.17", Fin (-111.17)); ("32.24", #32.24); ("-9999.0", Fin (IZR (-9999))); ("12.5", #12.5); ("-99999", Fin (IZR (-99999))); ("-99.000", Fin (IZR (-99)))]%string.
Example C189_example : exists table,
  read_crn ex_crn_float ex_crn_int
    [repeat None 23;
     map Some ["53131"; "20190101"; "5"; "20181231"; "1605"; "3"; "-111.17"; "32.24"; "12.5"; "-9999.0"; "-99999"; "0"; "-9999.0"; "C"; "0"; "12.5"; "0"; "-99.000"; "-9999.0"; "-9999"; "0"; "12.5"; "0"]%string] true
  = Ok ([instant (Date 2019 1 1) 0 5], table) /\ lookup "temp_air" table = Some [RNum #12.5] /\ lookup "ghi" table = Some [RNum NaN] /\ lookup "WETNESS" table = Some [RNum NaN].
Proof.
  eexists. assert (Q : forall x, feqb (Fin x) (Fin x) = true) by (intros x; cbn; unfold Reqb; destruct (Req_EM_T x x); congruence).
  assert (N : forall x z, x <> IZR z -> feqb (Fin x) (Fin (IZR z)) = false) by (intros x z H; cbn; unfold Reqb; destruct (Req_EM_T x (IZR z)); congruence).
  unfold read_crn. cbn -[feqb crn_index Rmult Rinv Rplus Ropp IZR]. rewrite !Q. change (crn_index [(20190101, 5)]) with (Ok [instant (Date 2019 1 1) 0 5]). rewrite !N by lra. cbn -[feqb crn_index Rmult Rinv Rplus Ropp IZR instant]. repeat split.
Qed.

(** ** C190 *)
Definition digit_of (c : ascii) : option Z := let n := Z.of_nat (nat_of_ascii c) in if (48 <=? n) && (n <=? 57) then Some (n - 48) else None.
Fixpoint decimal_value (acc : Z) (t : string) : option Z :=
  match t with EmptyString => Some acc | String c t' => match digit_of c with Some d => decimal_value (10 * acc + d) t' | None => None end end.
(** a text of between a and b decimal digits with value v *)
Definition decimal (a b : nat) (t : string) (v : Z) : Prop := (a <= String.length t <= b)%nat /\ decimal_value 0 t = Some v.
(** month/day/year and hour:minute, each of one or two digits, the year of four *)
Definition midc_stamp (s : string) (t : Z) : Prop :=
  exists tm td ty th ti m d y h mi, s = (tm ++ "/" ++ td ++ "/" ++ ty ++ th ++ ":" ++ ti)%string /\
    decimal 1 2 tm m /\ decimal 1 2 td d /\ decimal 4 4 ty y /\ decimal 1 2 th h /\ decimal 1 2 ti mi /\ valid_date (Date y m d) /\ h <= 23 /\ mi <= 59 /\ t = instant (Date y m d) h mi.
Lemma codes_app a b : codes (a ++ b) = codes a ++ codes b.
Proof. induction a as [|c a IH]; [reflexivity|]. cbn [append codes]. rewrite IH. reflexivity. Qed.
Lemma codes_length s : List.length (codes s) = String.length s.
Proof. induction s as [|c s IH]; [reflexivity|]. cbn. rewrite IH. reflexivity. Qed.
Lemma codes_split s : forall a b, codes s = a ++ b -> exists s1 s2, s = (s1 ++ s2)%string /\ codes s1 = a /\ codes s2 = b.
Proof.
  induction s as [|c s IH]; intros a b H.
  - destruct a; [|discriminate H]. destruct b; [|discriminate H]. exists ""%string, ""%string. auto.
  - destruct a as [|x a]; [exists ""%string, (String c s); auto|]. cbn [codes app] in H. injection H as H1 H2. destruct (IH a b H2) as (s1 & s2 & -> & E1 & E2). exists (String c s1), s2. split; [reflexivity|]. split; [cbn [codes]; congruence|exact E2].
Qed.
Lemma code_slash c : code c = slash -> c = "/"%char.
Proof.
  unfold code, slash, dash. cbv zeta. intros H. assert (E : nat_of_ascii c = 47%nat) by (destruct ((48 <=? Z.of_nat (nat_of_ascii c)) && (Z.of_nat (nat_of_ascii c) <=? 57)) eqn:D; [apply andb_prop in D; lia|]; destruct (Z.eqb_spec (Z.of_nat (nat_of_ascii c)) 45); lia).
  rewrite <- (ascii_nat_embedding c), E. reflexivity.
Qed.
Lemma code_colon c : code c = colon -> c = ":"%char.
Proof.
  unfold code, colon, dash. cbv zeta. intros H. assert (E : nat_of_ascii c = 58%nat) by (destruct ((48 <=? Z.of_nat (nat_of_ascii c)) && (Z.of_nat (nat_of_ascii c) <=? 57)) eqn:D; [apply andb_prop in D; lia|]; destruct (Z.eqb_spec (Z.of_nat (nat_of_ascii c)) 45); lia).
  rewrite <- (ascii_nat_embedding c), E. reflexivity.
Qed.
Lemma codes_one (k : Z) (c0 : ascii) s q : (forall c, code c = k -> c = c0) -> codes s = k :: q -> exists s', s = String c0 s' /\ codes s' = q.
Proof. intros K. destruct s as [|c s]; [discriminate|]. cbn [codes]. intros H. injection H as H1 H2. apply K in H1. subst. eauto. Qed.
Lemma digit_of_code c : match digit_of c with Some d => code c = d /\ digit (code c) = true | None => digit (code c) = false end.
Proof.
  unfold digit_of, code. cbv zeta. set (n := Z.of_nat (nat_of_ascii c)). destruct ((48 <=? n) && (n <=? 57)) eqn:D; [split; [reflexivity|apply andb_prop in D; apply digit_spec; lia]|].
  destruct (Z.eqb_spec n 45); [reflexivity|]. unfold digit. apply andb_false_iff. left. apply Z.leb_gt. lia.
Qed.
Lemma decimal_codes t : forall acc v, decimal_value acc t = Some v <-> Forall (fun c => digit c = true) (codes t) /\ fold_left (fun a d => 10 * a + d) (codes t) acc = v.
Proof.
  induction t as [|c t IH]; intros acc v; cbn [decimal_value codes fold_left]; [split; [intros H; injection H as <-; split; [constructor|reflexivity]|intros [_ ->]; reflexivity]|].
  pose proof (digit_of_code c) as D. destruct (digit_of c) as [d|].
  - destruct D as [E D]. rewrite IH, E. split; intros [F V]; [split; [constructor; [rewrite <- E; exact D|exact F]|exact V]|inversion F; split; assumption].
  - split; [discriminate|]. intros [F _]. inversion F; congruence.
Qed.
Lemma decimal_val a b t v : decimal a b t v <-> (a <= List.length (codes t) <= b)%nat /\ Forall (fun c => digit c = true) (codes t) /\ val (codes t) = v.
Proof. unfold decimal, val. rewrite decimal_codes, codes_length. tauto. Qed.
(** a field followed by a mark takes the digits before it *)
Lemma first_some_one {A B} (f : A -> option B) k l : In k l -> (forall j, In j l -> j <> k -> f j = None) -> (forall a b : A, a = b \/ a <> b) -> first_some f l = f k.
Proof.
  intros I N D. induction l as [|j l IH]; [destruct I|]. cbn [first_some]. destruct (D j k) as [->|J].
  - destruct (f k) eqn:E; [reflexivity|]. clear I. assert (G : forall m, (forall j, In j m -> In j l) -> first_some f m = None).
    { induction m as [|j m IHm]; intros H; [reflexivity|]. cbn [first_some]. destruct (D j k) as [->|J]; [rewrite E|rewrite N by (try right; auto using in_eq)]; apply IHm; intros i Hi; apply H; right; exact Hi. }
    apply G. auto.
  - rewrite N by (auto using in_eq). apply IH; [destruct I as [I|I]; [congruence|exact I]|]. intros i Hi. apply N. right. exact Hi.
Qed.
Lemma smatch_field w wmin ok lo c fs q s : (wmin <= List.length q <= w)%nat -> Forall (fun c => digit c = true) q -> c < 0 ->
  smatch (Fld w wmin ok lo :: Lit c :: fs) (q ++ c :: s) =
  if (if Nat.eqb (List.length q) w then ok (val q) else lo <=? val q) then match smatch fs s with Some (vs, r) => Some (val q :: vs, r) | None => None end else None.
Proof.
  intros L D C. cbn [smatch]. rewrite (first_some_one _ (List.length q)).
  - rewrite firstn_app, firstn_all, Nat.sub_diag, firstn_O, app_nil_r, Nat.eqb_refl. rewrite skipn_app, skipn_all, Nat.sub_diag, skipn_O. cbn [app andb]. rewrite (proj2 (forallb_forall _ _)) by (apply Forall_forall, D). cbn [andb]. rewrite Z.eqb_refl.
    destruct (if Nat.eqb (List.length q) w then ok (val q) else lo <=? val q); [|reflexivity]. reflexivity.
  - unfold widths. apply in_map_iff. exists (w - List.length q)%nat. split; [lia|]. apply in_seq. lia.
  - intros k _ NK. cbv zeta. destruct (Nat.lt_ge_cases k (List.length q)) as [K|K].
    + rewrite skipn_app. replace (k - List.length q)%nat with 0%nat by lia. cbn [skipn]. destruct (skipn k q) as [|x l] eqn:E; [assert (List.length (skipn k q) = 0%nat) by (rewrite E; reflexivity); rewrite skipn_length in H; lia|].
      cbn [app]. assert (X : digit x = true). { rewrite Forall_forall in D. apply D. rewrite <- (firstn_skipn k q), E. apply in_or_app. right. left. reflexivity. }
      apply digit_spec in X. destruct (Z.eqb_spec x c); [lia|]. destruct (_ && _ && _); reflexivity.
    + assert (F : forallb digit (firstn k (q ++ c :: s)) = false).
      { rewrite firstn_app. rewrite forallb_app. destruct (k - List.length q)%nat as [|n] eqn:E; [lia|]. cbn [firstn forallb]. assert (X : digit c = false) by (unfold digit; apply andb_false_iff; left; apply Z.leb_gt; lia). rewrite X. cbn [andb]. apply andb_false_r. }
      rewrite F, andb_false_r. reflexivity.
  - intros a b. destruct (Nat.eq_dec a b); auto.
Qed.
Lemma smatch_year ok lo fs q s : List.length q = 4%nat -> Forall (fun c => digit c = true) q -> ok (val q) = true ->
  smatch (Fld 4 4 ok lo :: fs) (q ++ s) = match smatch fs s with Some (vs, r) => Some (val q :: vs, r) | None => None end.
Proof.
  intros L D O. destruct q as [|a [|b [|c [|d [|e q]]]]]; try discriminate L. rewrite !Forall_cons_iff in D. destruct D as (Ha & Hb & Hc & Hd & _).
  cbn [smatch widths seq map Nat.sub first_some firstn List.length Nat.eqb andb forallb skipn app]. rewrite Ha, Hb, Hc, Hd, O. cbn [andb]. destruct (smatch fs s) as [[vs r]|]; reflexivity.
Qed.
Lemma strptime_midc s vs : strptime midc_format (codes s) = Some vs <->
  exists tm td ty th ti m d y h mi, s = (tm ++ "/" ++ td ++ "/" ++ ty ++ th ++ ":" ++ ti)%string /\
    decimal 1 2 tm m /\ decimal 1 2 td d /\ decimal 4 4 ty y /\ decimal 1 2 th h /\ decimal 1 2 ti mi /\ 1 <= m <= 12 /\ 1 <= d <= 31 /\ h <= 23 /\ mi <= 59 /\ vs = [m; d; y; h; mi].
Proof.
  assert (P1 : forall q, List.length q = 1%nat -> Forall (fun c => digit c = true) q -> 0 <= val q <= 9).
  { intros [|a [|b q]] L F; try discriminate L. inversion F; subst. apply digit_spec in H1. cbn. lia. }
  assert (RUN : forall qm qd qy qh qi, (1 <= List.length qm <= 2)%nat -> (1 <= List.length qd <= 2)%nat -> List.length qy = 4%nat -> (1 <= List.length qh <= 2)%nat -> (1 <= List.length qi <= 2)%nat ->
     Forall (fun c => digit c = true) qm -> Forall (fun c => digit c = true) qd -> Forall (fun c => digit c = true) qy -> Forall (fun c => digit c = true) qh -> Forall (fun c => digit c = true) qi ->
     forall vs, strptime midc_format (qm ++ slash :: qd ++ slash :: qy ++ qh ++ colon :: qi) = Some vs <->
       1 <= val qm <= 12 /\ 1 <= val qd <= 31 /\ val qh <= 23 /\ val qi <= 59 /\ vs = [val qm; val qd; val qy; val qh; val qi]).
  { intros qm qd qy qh qi Lm Ld Ly Lh Li Dm Dd Dy Dh Di vs'. unfold strptime, midc_format, fm, fd, fY, fH.
    rewrite (smatch_field 2 1 _ _ slash) by (try assumption; reflexivity). rewrite (smatch_field 2 1 _ _ slash) by (try assumption; reflexivity). rewrite smatch_year by (try assumption; reflexivity).
    rewrite (smatch_field 2 1 _ _ colon) by (try assumption; reflexivity).
    assert (LAST : forall ws, match smatch [fM] qi with Some (vs, []) => Some vs | _ => None end = Some ws <-> val qi <= 59 /\ ws = [val qi]).
    { intros ws. destruct qi as [|a [|b [|c qi]]]; cbn in Li; try lia.
      - pose proof (P1 [a] eq_refl Di) as V. inversion Di; subst. unfold fM. cbn [smatch widths seq map Nat.sub first_some firstn List.length Nat.eqb andb forallb skipn]. rewrite H1. cbn [andb]. destruct (Z.leb_spec 0 (val [a])); [|lia]. split; [intros E; injection E as <-; split; [lia|reflexivity]|intros [_ ->]; reflexivity].
      - rewrite !Forall_cons_iff in Di. destruct Di as (H1 & H4 & _). unfold fM. cbn [smatch widths seq map Nat.sub first_some firstn List.length Nat.eqb andb forallb skipn]. rewrite H1, H4. cbn [andb]. destruct (Z.leb_spec (val [a; b]) 59).
        + split; [intros E; injection E as <-; auto|intros [_ ->]; reflexivity].
        + destruct (0 <=? val [a]); (split; [discriminate|lia]). }
    assert (CM : (if Nat.eqb (List.length qm) 2 then (1 <=? val qm) && (val qm <=? 12) else 1 <=? val qm) = ((1 <=? val qm) && (val qm <=? 12))).
    { destruct (Nat.eqb_spec (List.length qm) 2); [reflexivity|]. pose proof (P1 qm ltac:(lia) Dm). destruct (Z.leb_spec (val qm) 12); [rewrite andb_true_r; reflexivity|lia]. }
    assert (CD : (if Nat.eqb (List.length qd) 2 then (1 <=? val qd) && (val qd <=? 31) else 1 <=? val qd) = ((1 <=? val qd) && (val qd <=? 31))).
    { destruct (Nat.eqb_spec (List.length qd) 2); [reflexivity|]. pose proof (P1 qd ltac:(lia) Dd). destruct (Z.leb_spec (val qd) 31); [rewrite andb_true_r; reflexivity|lia]. }
    assert (CH : (if Nat.eqb (List.length qh) 2 then val qh <=? 23 else 0 <=? val qh) = (val qh <=? 23)).
    { destruct (Nat.eqb_spec (List.length qh) 2); [reflexivity|]. pose proof (P1 qh ltac:(lia) Dh). destruct (Z.leb_spec (val qh) 23); destruct (Z.leb_spec 0 (val qh)); lia || reflexivity. }
    rewrite CM, CD, CH. clear CM CD CH.
    destruct ((1 <=? val qm) && (val qm <=? 12)) eqn:EM; [apply andb_prop in EM|apply andb_false_iff in EM; split; [discriminate|lia]].
    destruct ((1 <=? val qd) && (val qd <=? 31)) eqn:ED; [apply andb_prop in ED|apply andb_false_iff in ED; split; [discriminate|lia]].
    destruct (val qh <=? 23) eqn:EH; [|split; [discriminate|lia]].
    destruct (smatch [fM] qi) as [[ws [|x r]]|].
    - specialize (LAST ws). cbn beta iota. split.
      + intros E. injection E as <-. destruct (proj1 LAST eq_refl) as [V ->]. repeat split; lia.
      + intros (_ & _ & _ & V & ->). pose proof (proj1 LAST eq_refl) as [_ ->]. reflexivity.
    - split; [discriminate|]. intros (_ & _ & _ & V & _). destruct (LAST [val qi]) as [_ K]. discriminate (K (conj V eq_refl)).
    - split; [discriminate|]. intros (_ & _ & _ & V & _). destruct (LAST [val qi]) as [_ K]. discriminate (K (conj V eq_refl)). }
  split.
  - intros H. assert (W : exists qm qd qy qh qi, codes s = qm ++ slash :: qd ++ slash :: qy ++ qh ++ colon :: qi /\ (1 <= List.length qm <= 2)%nat /\ (1 <= List.length qd <= 2)%nat /\ List.length qy = 4%nat /\ (1 <= List.length qh <= 2)%nat /\ (1 <= List.length qi <= 2)%nat /\
      Forall (fun c => digit c = true) qm /\ Forall (fun c => digit c = true) qd /\ Forall (fun c => digit c = true) qy /\ Forall (fun c => digit c = true) qh /\ Forall (fun c => digit c = true) qi).
    { unfold strptime in H. destruct (smatch midc_format (codes s)) as [[ws [|x r]]|] eqn:M; try discriminate H. clear H. apply smatch_sound in M; [|intros f I; cbn in I; repeat (destruct I as [<-|I]; [cbn; try exact Logic.I; lia|]); destruct I].
      remember (codes s) as cs eqn:CS. clear CS. unfold midc_format, fm, fd, fY, fH, fM in M.
      inversion M as [| |? ? ? ? ? qm ? s1 ? Dm Lm _ M1]; subst. inversion M1 as [|? ? ? s2 ? M2|]; subst. inversion M2 as [| |? ? ? ? ? qd ? s3 ? Dd Ld _ M3]; subst. inversion M3 as [|? ? ? s4 ? M4|]; subst.
      inversion M4 as [| |? ? ? ? ? qy ? s5 ? Dy Ly _ M5]; subst. inversion M5 as [| |? ? ? ? ? qh ? s6 ? Dh Lh _ M6]; subst. inversion M6 as [|? ? ? s7 ? M7|]; subst. inversion M7 as [| |? ? ? ? ? qi ? s8 ? Di Li _ M8]; subst. inversion M8; subst.
      exists qm, qd, qy, qh, qi. rewrite app_nil_r. split; [reflexivity|]. repeat split; try assumption; lia. }
    destruct W as (qm & qd & qy & qh & qi & E & Lm & Ld & Ly & Lh & Li & Dm & Dd & Dy & Dh & Di). rewrite E in H. apply RUN in H; try assumption. destruct H as (Vm & Vd & Vh & Vi & ->).
    apply codes_split in E. destruct E as (tm & r1 & -> & <- & E). apply (codes_one _ _ _ _ code_slash) in E. destruct E as (r2 & -> & E). apply codes_split in E. destruct E as (td & r3 & -> & <- & E). apply (codes_one _ _ _ _ code_slash) in E. destruct E as (r4 & -> & E).
    apply codes_split in E. destruct E as (ty & r5 & -> & <- & E). apply codes_split in E. destruct E as (th & r6 & -> & <- & E). apply (codes_one _ _ _ _ code_colon) in E. destruct E as (ti & -> & <-).
    exists tm, td, ty, th, ti, (val (codes tm)), (val (codes td)), (val (codes ty)), (val (codes th)), (val (codes ti)). rewrite !decimal_val. split; [reflexivity|]. repeat split; try assumption; lia.
  - intros (tm & td & ty & th & ti & m & d & y & h & mi & -> & Hm & Hd & Hy & Hh & Hi & Vm & Vd & Vh & Vi & ->). rewrite decimal_val in Hm, Hd, Hy, Hh, Hi. destruct Hm as (? & ? & <-), Hd as (? & ? & <-), Hy as (? & ? & <-), Hh as (? & ? & <-), Hi as (? & ? & <-).
    rewrite !codes_app. cbn [codes app]. change (code "/") with slash. change (code ":") with colon. apply RUN; try assumption; try lia. tauto.
Qed.
Lemma midc_stamp_spec s t : mdy_time (strptime midc_format (codes s)) = Ok t <-> midc_stamp s t.
Proof.
  unfold midc_stamp. split.
  - destruct (strptime midc_format (codes s)) as [vs|] eqn:E; [|discriminate]. apply strptime_midc in E. destruct E as (tm & td & ty & th & ti & m & d & y & h & mi & -> & Hm & Hd & Hy & Hh & Hi & Vm & Vd & Vh & Vi & ->).
    cbn [mdy_time]. destruct (valid_dateb (Date y m d)) eqn:V; [|discriminate]. intros H. injection H as <-. apply valid_dateb_spec in V. exists tm, td, ty, th, ti, m, d, y, h, mi. auto 12.
  - intros (tm & td & ty & th & ti & m & d & y & h & mi & E & Hm & Hd & Hy & Hh & Hi & V & Vh & Vi & ->). assert (K : strptime midc_format (codes s) = Some [m; d; y; h; mi]).
    { apply strptime_midc. exists tm, td, ty, th, ti, m, d, y, h, mi. destruct V as [V1 V2]. cbn [Calendar.yr mo dy] in *. pose proof (days_in_month_bounds y m). repeat (split; [assumption || lia|]). reflexivity. }
    rewrite K. cbn [mdy_time]. rewrite (proj2 (valid_dateb_spec _)) by exact V. reflexivity.
Qed.
Definition midc_zone_of (label zone : string) : Prop :=
  label = "PST"%string /\ zone = "Etc/GMT+8"%string \/ label = "CST"%string /\ zone = "Etc/GMT+6"%string \/ label <> "PST"%string /\ label <> "CST"%string /\ zone = label.
Lemma midc_zone_spec label zone : midc_zone_of label zone <-> zone = midc_zone label.
Proof.
  unfold midc_zone_of, midc_zone, midc_tz_map. cbn [lookup]. destruct (String.eqb_spec label "PST") as [->|N1]; [intuition congruence|]. destruct (String.eqb_spec label "CST") as [->|N2]; [intuition congruence|]. intuition congruence.
Qed.
(** every column, under the name that the map gives it *)
Definition renamed (m : list (string * string)) (data out : table) : Prop :=
  Forall2 (fun c c' => snd c' = snd c /\ ((exists n, In (fst c, n) m /\ fst c' = n) \/ (forall n, ~ In (fst c, n) m) /\ fst c' = fst c)) data out.
Lemma lookup_in {A} (k : string) (m : list (string * A)) : NoDup (map fst m) -> forall v, lookup k m = Some v <-> In (k, v) m.
Proof.
  induction m as [|[k' v'] m IH]; intros D v; cbn [lookup]; [split; [discriminate|intros []]|]. inversion D as [|? ? N D']; subst. destruct (String.eqb_spec k k') as [->|E].
  - split; [intros H; injection H as ->; left; reflexivity|]. intros [H|H]; [congruence|]. exfalso. apply N. apply in_map_iff. exists (k', v). auto.
  - rewrite IH by exact D'. split; [right; assumption|]. intros [H|H]; [congruence|exact H].
Qed.
Lemma lookup_none {A} (k : string) (m : list (string * A)) : lookup k m = None <-> forall v, ~ In (k, v) m.
Proof.
  induction m as [|[k' v'] m IH]; cbn [lookup]; [split; [intros _ v []|reflexivity]|]. destruct (String.eqb_spec k k') as [->|E].
  - split; [discriminate|]. intros H. exfalso. apply (H v'). left. reflexivity.
  - rewrite IH. split; intros H v; [intros [K|K]; [congruence|apply (H v K)]|intros K; apply (H v); right; exact K].
Qed.
Lemma renamed_spec m data out : NoDup (map fst m) -> renamed m data out <-> out = rename_columns m data.
Proof.
  intros D. unfold renamed, rename_columns. assert (ONE : forall c c' : string * list rcell, (snd c' = snd c /\ ((exists n, In (fst c, n) m /\ fst c' = n) \/ (forall n, ~ In (fst c, n) m) /\ fst c' = fst c)) <->
    c' = (match lookup (fst c) m with Some n => n | None => fst c end, snd c)).
  { intros [a x] [b y]. cbn [fst snd]. destruct (lookup a m) as [n|] eqn:L.
    - apply (lookup_in a m D) in L. split; [intros (-> & [(n' & I & ->)|(N & _)]); [|destruct (N _ L)]; apply (lookup_in a m D) in I; apply (lookup_in a m D) in L; congruence|]. intros H. injection H as -> ->. split; [reflexivity|]. left. eauto.
    - pose proof (proj1 (lookup_none a m) L) as L0. clear L. rename L0 into L. split; [intros (-> & [(n' & I & ->)|(N & ->)]); [destruct (L _ I)|reflexivity]|]. intros H. injection H as -> ->. auto. }
  revert out. induction data as [|c data IH]; intros [|c' out]; cbn [map]; split; intros H; try (inversion H; fail); try constructor; try reflexivity.
  - inversion H; subst. f_equal; [apply ONE; assumption|apply IH; assumption].
  - injection H as H1 H2. apply ONE. exact H1.
  - injection H as H1 H2. apply IH. exact H2.
Qed.
Section Midc.
  Context {T : Type}.
  Variable localize : string -> list Z -> res (list T).
  (** a processed file: the stamps are the texts of the DATE column followed by those of the second column, whose label is the time zone *)
Theorem C190_processed : forall data names index out, NoDup (map fst data) -> NoDup (map fst names) ->
    (read_midc localize data names false = Ok (index, out) <->
     exists first label times rest dates local zone, data = first :: (label, times) :: rest /\ In ("DATE (MM/DD/YYYY)"%string, dates) data /\
       Forall2 (fun p t => exists a b, p = (RText a, RText b) /\ midc_stamp (a ++ b) t) (combine dates times) local /\
       midc_zone_of label zone /\ localize zone local = Ok index /\ renamed names data out).
  Proof.
    intros data names index out D DN. unfold read_midc, format_index.
    assert (STAMPS : forall ps local, (let* texts := mapM midc_add ps in mapM (fun s => mdy_time (strptime midc_format (codes s))) texts) = Ok local <-> Forall2 (fun p t => exists a b, p = (RText a, RText b) /\ midc_stamp (a ++ b) t) ps local).
    { intros ps local. split.
      - destruct (mapM midc_add ps) as [texts|] eqn:E; cbn [bind]; [|discriminate]. intros M. apply mapM_Forall2 in E. apply mapM_Forall2 in M. revert local M. induction E as [|[x y] s ps texts H E IH]; intros local M; inversion M; subst; constructor; [|apply IH; assumption].
        destruct x as [a| |], y as [b| |]; try discriminate H. injection H as <-. exists a, b. split; [reflexivity|]. apply midc_stamp_spec. assumption.
      - intros F. induction F as [|p t ps local (a & b & -> & S1) F IH]; [reflexivity|]. cbn [mapM midc_add bind]. destruct (mapM midc_add ps) as [texts|]; [|discriminate IH]. cbn [bind] in *. cbn [mapM]. apply midc_stamp_spec in S1. rewrite S1, IH. reflexivity. }
    destruct data as [|first [|[label times] rest]]; [split; [discriminate|intros (? & ? & ? & ? & ? & ? & ? & E & _); discriminate E]..|]. set (data := first :: (label, times) :: rest) in *.
    assert (GT : getcol data label = Ok times) by (unfold getcol; rewrite (proj2 (lookup_in label data D times)); [reflexivity|right; left; reflexivity]). rewrite GT.
    assert (GD : forall x, getcol data "DATE (MM/DD/YYYY)" = Ok x <-> In ("DATE (MM/DD/YYYY)"%string, x) data) by (intros x; unfold getcol; rewrite <- (lookup_in _ data D x); destruct (lookup _ data); split; congruence).
    cbn [bind]. split.
    - destruct (getcol data "DATE (MM/DD/YYYY)") as [dates|] eqn:GE; cbn [bind]; [|discriminate]. pose proof (proj1 (GD dates) eq_refl) as I. specialize (STAMPS (combine dates times)).
      destruct (mapM midc_add (combine dates times)) as [texts|]; cbn [bind] in *; [|discriminate]. destruct (mapM _ texts) as [local|]; cbn [bind] in *; [|discriminate]. destruct (localize (midc_zone label) local) as [ix|] eqn:L; cbn [bind fst snd]; [|discriminate].
      intros H. apply Ok_inj in H. apply pair_equal_spec in H. destruct H as [<- <-]. exists first, label, times, rest, dates, local, (midc_zone label). split; [reflexivity|]. split; [exact I|]. split; [apply STAMPS; reflexivity|]. split; [apply midc_zone_spec; reflexivity|]. split; [exact L|]. apply renamed_spec; [exact DN|reflexivity].
    - intros (f' & label' & times' & rest' & dates & local & zone & E & I & F & Z & L & R). injection E as <- <- <- <-. rewrite (proj2 (GD dates) I). cbn [bind]. apply STAMPS in F. destruct (mapM midc_add (combine dates times)) as [texts|]; cbn [bind] in *; [|discriminate F]. rewrite F. cbn [bind].
      apply midc_zone_spec in Z. subst zone. rewrite L. cbn [bind fst snd]. apply renamed_spec in R; [|exact DN]. rewrite <- R. reflexivity.
  Qed.
  (** a raw file: years, days of the year and times HHMM as integers; the label of the fourth column is the time zone *)
Theorem C190_raw : forall data names index out, NoDup (map fst data) -> NoDup (map fst names) ->
    (forall ys y, In ("Year"%string, ys) data -> In (RInt y) ys -> 1000 <= y) ->
    (read_midc localize data names true = Ok (index, out) <->
     exists c0 c1 c2 label times rest years days ys js ts local zone, data = c0 :: c1 :: c2 :: (label, times) :: rest /\ In ("Year"%string, years) data /\ In ("DOY"%string, days) data /\
       years = map RInt ys /\ days = map RInt js /\ times = map RInt ts /\ Forall midc_row (combine (combine ys js) ts) /\
       local = map (fun '(y, j, t) => instant (Date y 1 1) 0 (minutes t) + 1440 * (j - 1)) (combine (combine ys js) ts) /\
       midc_zone_of label zone /\ localize zone local = Ok index /\ renamed names data out).
  Proof.
    intros data names index out D DN PRE. unfold read_midc, format_index_raw.
    assert (AI : forall c l, mapM as_int c = Ok l <-> c = map RInt l).
    { induction c as [|x c IH]; intros l; cbn [mapM]; [split; [intros H; injection H as <-; reflexivity|destruct l; [reflexivity|discriminate]]|]. destruct x as [s|z|v]; cbn [as_int bind].
      - split; [discriminate|destruct l; discriminate].
      - destruct (mapM as_int c) as [l'|] eqn:E; cbn [bind].
        + pose proof (proj1 (IH l') eq_refl) as ->. split; [intros H; injection H as <-; reflexivity|]. destruct l as [|y l]; [discriminate|]. cbn [map]. intros H. injection H as <- H. f_equal. f_equal. clear -H. revert l H. induction l' as [|a l' IH]; intros [|b l] H; try discriminate H; [reflexivity|]. cbn [map] in H. injection H as -> H. f_equal. apply IH, H.
        + split; [discriminate|]. destruct l as [|y l]; [discriminate|]. cbn [map]. intros H. injection H as -> H. apply IH in H. discriminate H.
      - split; [discriminate|destruct l; discriminate]. }
    destruct data as [|c0 [|c1 [|c2 [|[label times] rest]]]]; [split; [discriminate|intros (? & ? & ? & ? & ? & ? & ? & ? & ? & ? & ? & ? & ? & E & _); discriminate E]..|]. set (data := c0 :: c1 :: c2 :: (label, times) :: rest) in *.
    assert (GT : getcol data label = Ok times) by (unfold getcol; rewrite (proj2 (lookup_in label data D times)); [reflexivity|right; right; right; left; reflexivity]).
    assert (BIG : forall years (ys js ts : list Z), lookup "Year" data = Some years -> years = map RInt ys -> Forall (fun '(y, _, _) => 1000 <= y) (combine (combine ys js) ts)).
    { intros years ys js ts L ->. apply (lookup_in _ _ D) in L. apply Forall_forall. intros [[y j] t] I. apply in_combine_l in I. apply in_combine_l in I. apply (PRE _ _ L). apply in_map. exact I. }
    split.
    - destruct (lookup "Year" data) as [years|] eqn:LY; cbn [bind]; [|discriminate]. destruct (lookup "DOY" data) as [days|] eqn:LD; cbn [bind]; [|discriminate]. rewrite GT. cbn [bind].
      destruct (mapM as_int years) as [ys|] eqn:MY; cbn [bind]; [|discriminate]. destruct (mapM as_int days) as [js|] eqn:MD; cbn [bind]; [|discriminate]. destruct (mapM as_int times) as [ts|] eqn:MT; cbn [bind]; [|discriminate].
      apply AI in MY. apply AI in MD. apply AI in MT. destruct (C150_midc _ (BIG _ _ js ts eq_refl MY)) as [C1 C2]. destruct (midc_raw_index _) as [local|] eqn:MI; cbn [bind]; [|discriminate]. destruct (localize (midc_zone label) local) as [ix|] eqn:L; cbn [bind fst snd]; [|discriminate].
      intros H. apply Ok_inj in H. apply pair_equal_spec in H. destruct H as [<- <-]. apply (lookup_in _ _ D) in LY. apply (lookup_in _ _ D) in LD.
      assert (F : Forall midc_row (combine (combine ys js) ts)).
      { assert (DEC : forall l, Forall midc_row l \/ ~ Forall midc_row l). { induction l as [|[[y j] t] l IH]; [left; constructor|]. assert (O : midc_row (y, j, t) \/ ~ midc_row (y, j, t)) by (unfold midc_row, hhmm; lia). destruct O as [O|O], IH as [IH|IH]; [left; constructor; assumption|right|right|right]; intros F; inversion F; contradiction. }
        destruct (DEC (combine (combine ys js) ts)) as [F|F]; [exact F|]. discriminate (C2 F). }
      pose proof (C1 F) as E. apply Ok_inj in E.
      exists c0, c1, c2, label, times, rest, years, days, ys, js, ts, local, (midc_zone label). repeat (split; [assumption || reflexivity|]). split; [apply midc_zone_spec; reflexivity|]. split; [exact L|]. apply renamed_spec; [exact DN|reflexivity].
    - intros (c0' & c1' & c2' & label' & times' & rest' & years & days & ys & js & ts & local & zone & E & IY & ID & EY & ED & ET & F & EL & Z & L & R). injection E as <- <- <- <- <- <-. apply (lookup_in _ _ D) in IY. apply (lookup_in _ _ D) in ID. rewrite IY, ID. cbn [bind]. rewrite GT. cbn [bind].
      rewrite (proj2 (AI years ys) EY), (proj2 (AI days js) ED), (proj2 (AI times ts) ET). cbn [bind]. rewrite (proj1 (C150_midc _ (BIG _ _ js ts IY EY)) F). cbn [bind]. rewrite <- EL. apply midc_zone_spec in Z. subst zone. rewrite L. cbn [bind fst snd]. apply renamed_spec in R; [|exact DN]. rewrite <- R. reflexivity.
  Qed.
  (** the failures of a processed file *)
Theorem C190_errors : forall data names e, NoDup (map fst data) -> read_midc localize data names false = Err e ->
    (e = IndexError /\ (List.length data < 2)%nat) \/
    exists first label times rest, data = first :: (label, times) :: rest /\
      ((e = KeyError /\ ~ In "DATE (MM/DD/YYYY)"%string (map fst data)) \/
       exists dates, In ("DATE (MM/DD/YYYY)"%string, dates) data /\
         ((e = TypeError /\ exists p, In p (combine dates times) /\ forall a b, p <> (RText a, RText b)) \/
          (e = ValueError /\ exists a b, In (RText a, RText b) (combine dates times) /\ forall t, ~ midc_stamp (a ++ b) t) \/
          (exists zone local, midc_zone_of label zone /\ localize zone local = Err e))).
  Proof.
    intros data names e D. unfold read_midc, format_index. destruct data as [|first [|[label times] rest]]; cbn [bind]; [intros H; injection H as <-; left; cbn; auto with arith..|]. set (data := first :: (label, times) :: rest) in *.
    assert (GT : getcol data label = Ok times) by (unfold getcol; rewrite (proj2 (lookup_in label data D times)); [reflexivity|right; left; reflexivity]). rewrite GT. intros H. right. exists first, label, times, rest. split; [reflexivity|].
    assert (ME : forall {A B} (f : A -> res B) l e, mapM f l = Err e -> exists x, In x l /\ f x = Err e).
    { intros A B f. induction l as [|x l IH]; intros e0; [discriminate|]. cbn [mapM]. destruct (f x) eqn:F; cbn [bind]; [|intros Q; injection Q as <-; exists x; split; [left; reflexivity|exact F]].
      destruct (mapM f l) eqn:Q; cbn [bind]; [discriminate|]. intros Q2. injection Q2 as <-. destruct (IH _ eq_refl) as (y & I & Y). exists y. split; [right; exact I|exact Y]. }
    unfold getcol in H. destruct (lookup "DATE (MM/DD/YYYY)" data) as [dates|] eqn:L; cbn [bind] in H.
    - right. exists dates. split; [apply (lookup_in _ _ D), L|]. destruct (mapM midc_add (combine dates times)) as [texts|e0] eqn:MT; cbn [bind] in H.
      + destruct (mapM _ texts) as [local|e0] eqn:ML; cbn [bind] in H.
        * right. right. exists (midc_zone label), local. split; [apply midc_zone_spec; reflexivity|]. destruct (localize (midc_zone label) local); cbn [bind] in H; [discriminate H|]. injection H as ->. reflexivity.
        * right. left. injection H as ->. apply ME in ML. destruct ML as (s & I & F). apply mapM_Forall2 in MT. assert (EX : exists p, In p (combine dates times) /\ midc_add p = Ok s).
          { clear -MT I. induction MT as [|p s' l l' H M IH]; [destruct I|]. destruct I as [->|I]; [exists p; split; [left; reflexivity|exact H]|]. destruct (IH I) as (q & Q1 & Q2). exists q. split; [right; exact Q1|exact Q2]. }
          destruct EX as ([x y] & IP & A). destruct x as [a| |], y as [b| |]; try discriminate A. injection A as <-. split.
          -- unfold mdy_time in F. destruct (strptime _ _) as [l|]; [|congruence]. repeat (destruct l as [|? l]; try congruence). destruct (valid_dateb _); congruence.
          -- exists a, b. split; [exact IP|]. intros t S1. apply midc_stamp_spec in S1. congruence.
      + left. injection H as ->. apply ME in MT. destruct MT as ([x y] & I & F). split; [|exists (x, y); split; [exact I|]].
        * destruct x, y; cbn in F; congruence.
        * intros a b E. injection E as -> ->. discriminate F.
    - left. injection H as <-. split; [reflexivity|]. intros I. apply in_map_iff in I. destruct I as ([k v] & E & I). cbn in E. subst k. apply (proj1 (lookup_none _ _) L v I).
  Qed.
End Midc.
(** the request: the station and the two dates as eight digits *)
Theorem C190_request : forall site start end_, valid_date start -> valid_date end_ -> 1000 <= Calendar.yr start <= 9999 -> 1000 <= Calendar.yr end_ <= 9999 ->
  exists b e, midc_request site start end_ = (site, b, e) /\
    forall d l, (d, l) = (start, b) \/ (d, l) = (end_, e) -> List.length l = 8%nat /\ Forall (fun c => digit c = true) l /\ val l = 10000 * Calendar.yr d + 100 * mo d + dy d.
Proof.
  intros site a z VA VZ YA YZ. unfold midc_request. eexists. eexists. split; [reflexivity|].
  assert (K : forall d, valid_date d -> 1000 <= Calendar.yr d <= 9999 -> let l := zpad 4 (Calendar.yr d) ++ zpad 2 (mo d) ++ zpad 2 (dy d) in List.length l = 8%nat /\ Forall (fun c => digit c = true) l /\ val l = 10000 * Calendar.yr d + 100 * mo d + dy d).
  { intros [y m d] [V1 V2] Y. cbn [Calendar.yr mo dy] in *. pose proof (days_in_month_bounds y m). rewrite !zpad_small by (cbn; lia). cbv zeta.
    assert (VA' : forall a b, val (a ++ b) = val a * 10 ^ Z.of_nat (List.length b) + val b).
    { intros p q. induction q as [|c q IH] using rev_ind; [rewrite app_nil_r; cbn; lia|]. rewrite app_assoc, !val_app, IH, app_length. cbn [List.length]. rewrite Nat2Z.inj_add, Z.pow_add_r by lia. change (10 ^ Z.of_nat 1) with 10. lia. }
    split; [rewrite !app_length, !digs_length; reflexivity|]. split; [rewrite !Forall_app; repeat split; apply digs_digits|]. rewrite !VA', !app_length, !digs_length, !val_digs by lia. cbn [Nat.add]. change (10 ^ Z.of_nat 2) with 100. change (10 ^ Z.of_nat 4) with 10000. rewrite !Z.mod_small by lia. lia. }
  intros d l [E|E]; injection E as -> ->; apply K; assumption.
Qed.
Print Assumptions C190_processed.
Print Assumptions C190_raw.
Print Assumptions C190_errors.
Print Assumptions C190_request.
Example C190_example : read_midc (fun z l => Ok (map (fun t => (z, t)) l)) [("DATE (MM/DD/YYYY)", [RText "1/02/2018"; RText "10/31/2018"]); ("PST", [RText "00:05"; RText "7:30"]); ("Global Horizontal [W/m^2]", [RInt 3; RInt 4])]%string
    [("Global Horizontal [W/m^2]", "ghi")]%string false =
  Ok ([("Etc/GMT+8", instant (Date 2018 1 2) 0 5); ("Etc/GMT+8", instant (Date 2018 10 31) 7 30)], [("DATE (MM/DD/YYYY)", [RText "1/02/2018"; RText "10/31/2018"]); ("PST", [RText "00:05"; RText "7:30"]); ("ghi", [RInt 3; RInt 4])])%string /\
  read_midc (fun z l => Ok (map (fun t => (z, t)) l)) [("Year", [RInt 2018]); ("DOY", [RInt 182]); ("x", [RInt 0]); ("MST", [RInt 1])]%string [] true =
  Ok ([("MST", instant (Date 2018 7 1) 0 1)], [("Year", [RInt 2018]); ("DOY", [RInt 182]); ("x", [RInt 0]); ("MST", [RInt 1])])%string.
Proof. split; reflexivity. Qed.
