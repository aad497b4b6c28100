(** C149-C152: measurement station files *)
From Verif Require Import Base.Fl Base.Py Base.PyStr Base.FlFacts Base.Calendar Base.Strptime Model.Stations.
From Coq Require Import FinFun Reals List String Ascii Bool ZArith Lia Lra.
Import ListNotations.
Open Scope list_scope.
Open Scope Z_scope.

Lemma mapM_Forall2 {A B} (f : A -> res B) l l' : mapM f l = Ok l' <-> Forall2 (fun x y => f x = Ok y) l l'.
Proof.
  split.
  - revert l'. induction l as [|x l IH]; intros l' E; cbn [mapM] in E; [injection E as <-; constructor|]. destruct (f x) as [y|] eqn:F; [|discriminate]. cbn [bind] in E. destruct (mapM f l) as [ys|]; [|discriminate]. cbn [bind] in E. injection E as <-. constructor; [exact F|apply IH; reflexivity].
  - intros H. induction H as [|x y l l' F H IH]; [reflexivity|]. cbn [mapM]. rewrite F. cbn [bind]. rewrite IH. reflexivity.
Qed.
(** a reader that labels every row, or raises ValueError if there is a row it cannot label *)
Definition labels_rows {A} (index : list A -> res (list Z)) (ok : A -> Prop) (label : A -> Z) : Prop :=
  forall rows, (Forall ok rows -> index rows = Ok (map label rows)) /\ (~ Forall ok rows -> index rows = Err ValueError).
Lemma labels_mapM {A} (f : A -> res Z) (ok : A -> Prop) label : (forall x, ok x \/ ~ ok x) -> (forall x, ok x -> f x = Ok (label x)) -> (forall x, ~ ok x -> f x = Err ValueError) -> labels_rows (mapM f) ok label.
Proof.
  intros D H1 H2 rows. induction rows as [|x rows [IH1 IH2]]; [split; [reflexivity|intros N; exfalso; apply N; constructor]|]. cbn [mapM map]. destruct (D x) as [O|O].
  - rewrite (H1 x O). cbn [bind]. split; intros F.
    + rewrite IH1 by (inversion F; assumption). reflexivity.
    + rewrite IH2; [reflexivity|]. intros G. apply F. constructor; assumption.
  - rewrite (H2 x O). split; [intros F; inversion F; contradiction|reflexivity].
Qed.
Lemma str_year y : 1000 <= y -> str y = zpad 4 y.
Proof.
  intros H. unfold str, zpad. destruct (Z.ltb_spec y 0); [lia|]. pose proof (decimals_ge 3 y). change (10 ^ Z.of_nat 3) with 1000 in *. rewrite !Nat.max_r by lia. reflexivity.
Qed.
Lemma str_date d : 10000000 <= d -> str d = zpad 8 d.
Proof.
  intros H. unfold str, zpad. destruct (Z.ltb_spec d 0); [lia|]. pose proof (decimals_ge 7 d). change (10 ^ Z.of_nat 7) with 10000000 in *. rewrite !Nat.max_r by lia. reflexivity.
Qed.
Ltac fields := let f := fresh in let I := fresh in intros f I; repeat (destruct I as [<-|I]; [cbn; lia || exact Logic.I|]); destruct I.

Lemma pow2 : 10 ^ Z.of_nat 2 = 100. Proof. reflexivity. Qed.
Lemma pow3 : 10 ^ Z.of_nat 3 = 1000. Proof. reflexivity. Qed.
Lemma pow4 : 10 ^ Z.of_nat 4 = 10000. Proof. reflexivity. Qed.
Lemma pow8 : 10 ^ Z.of_nat 8 = 100000000. Proof. reflexivity. Qed.

(** ** C149: SURFRAD and SOLRAD time stamps *)
Definition surfrad_row (r : Z * Z * Z * Z) : Prop := let '(y, j, h, m) := r in y <= 9999 /\ 1 <= j <= 366 /\ 0 <= h <= 23 /\ 0 <= m <= 59.
(** C149: every row of a SURFRAD file is labelled with its minute of its day of its year, one-digit numbers included; any row out of range gives ValueError *)
Theorem C149_surfrad : forall rows, Forall (fun '(y, _, _, _) => 1000 <= y) rows ->
  (Forall surfrad_row rows -> surfrad_index rows = Ok (map (fun '(y, j, h, m) => instant (Date y 1 1) h m + 1440 * (j - 1)) rows)) /\
  (~ Forall surfrad_row rows -> surfrad_index rows = Err ValueError).
Proof.
  intros rows Y. assert (K : forall y j h m, 1000 <= y -> forall vs, strptime [fY; fj; fH; fM] (str y ++ zpad 3 j ++ zpad 2 h ++ zpad 2 m) = Some vs <-> vs = [y; j; h; m] /\ surfrad_row (y, j, h, m)).
  { intros y j h m Hy vs. rewrite str_year by exact Hy. rewrite <- (app_nil_r (zpad 2 m)). change (zpad 4 y ++ zpad 3 j ++ zpad 2 h ++ zpad 2 m ++ []) with (padded [fY; fj; fH; fM] [y; j; h; m]).
    rewrite strptime_padded by (try reflexivity; fields). cbn [fits fY fj fH fM surfrad_row]. rewrite pow4, pow3, pow2, !andb_true_iff, !Z.leb_le. intuition lia. }
  unfold surfrad_index. clear -Y K. induction Y as [|[[[y j] h] m] rows Hy Y [IH1 IH2]]; [split; [reflexivity|intros N; exfalso; apply N; constructor]|]. cbn [mapM map].
  assert (DEC : surfrad_row (y, j, h, m) \/ ~ surfrad_row (y, j, h, m)) by (cbn; lia). destruct DEC as [O|O].
  - rewrite (proj2 (K y j h m Hy _) (conj eq_refl O)). cbn [doy_time bind]. assert (E : on_day y j h m = instant (Date y 1 1) h m + 1440 * (j - 1)) by (unfold on_day, instant, ordinal; cbn [Calendar.yr mo dy]; change (days_before_month y 1) with 0; ring).
    split; intros F.
    + rewrite IH1 by (inversion F; assumption). cbn [bind]. rewrite E. reflexivity.
    + rewrite IH2; [reflexivity|]. intros G. apply F. constructor; assumption.
  - destruct (strptime [fY; fj; fH; fM] (str y ++ zpad 3 j ++ zpad 2 h ++ zpad 2 m)) as [vs|] eqn:E; [apply (K y j h m Hy) in E; tauto|].
    split; [intros F; inversion F; contradiction|reflexivity].
Qed.
Print Assumptions C149_surfrad.
Definition solrad_row (r : Z * Z * Z * Z * Z) : Prop := let '(y, m, d, h, mi) := r in y <= 9999 /\ valid_date (Date y m d) /\ 0 <= h <= 23 /\ 0 <= mi <= 59.
Lemma valid_dec d : valid_date d \/ ~ valid_date d.
Proof. pose proof (valid_dateb_spec d). destruct (valid_dateb d); [left|right]; intuition discriminate. Qed.
Theorem C149_solrad : forall rows, Forall (fun '(y, _, _, _, _) => 1000 <= y) rows ->
  (Forall solrad_row rows -> solrad_index rows = Ok (map (fun '(y, m, d, h, mi) => instant (Date y m d) h mi) rows)) /\
  (~ Forall solrad_row rows -> solrad_index rows = Err ValueError).
Proof.
  intros rows Y. assert (K : forall y m d h mi, 1000 <= y -> forall vs, strptime [fY; fm; fd; fH; fM] (str y ++ zpad 2 m ++ zpad 2 d ++ zpad 2 h ++ zpad 2 mi) = Some vs <-> vs = [y; m; d; h; mi] /\ (y <= 9999 /\ 1 <= m <= 12 /\ 1 <= d <= 31 /\ 0 <= h <= 23 /\ 0 <= mi <= 59)).
  { intros y m d h mi Hy vs. rewrite str_year by exact Hy. rewrite <- (app_nil_r (zpad 2 mi)). change (zpad 4 y ++ zpad 2 m ++ zpad 2 d ++ zpad 2 h ++ zpad 2 mi ++ []) with (padded [fY; fm; fd; fH; fM] [y; m; d; h; mi]).
    rewrite strptime_padded by (try reflexivity; fields). cbn [fits fY fm fd fH fM]. rewrite pow4, pow2, !andb_true_iff, !Z.leb_le. intuition lia. }
  unfold solrad_index. clear -Y K. induction Y as [|[[[[y m] d] h] mi] rows Hy Y [IH1 IH2]]; [split; [reflexivity|intros N; exfalso; apply N; constructor]|]. cbn [mapM map].
  assert (DEC : solrad_row (y, m, d, h, mi) \/ ~ solrad_row (y, m, d, h, mi)) by (unfold solrad_row; destruct (valid_dec (Date y m d)); lia || tauto). destruct DEC as [O|O].
  - assert (R : y <= 9999 /\ 1 <= m <= 12 /\ 1 <= d <= 31 /\ 0 <= h <= 23 /\ 0 <= mi <= 59) by (destruct O as (O1 & [O2 O3] & O4); cbn [Calendar.yr mo dy] in *; pose proof (days_in_month_bounds y m); lia).
    rewrite (proj2 (K y m d h mi Hy _) (conj eq_refl R)). cbn [ymd_time]. rewrite (proj2 (valid_dateb_spec _)) by (exact (proj1 (proj2 O))). cbn [bind]. split; intros F.
    + rewrite IH1 by (inversion F; assumption). reflexivity.
    + rewrite IH2; [reflexivity|]. intros G. apply F. constructor; assumption.
  - split; [intros F; inversion F; contradiction|intros _]. destruct (strptime [fY; fm; fd; fH; fM] (str y ++ zpad 2 m ++ zpad 2 d ++ zpad 2 h ++ zpad 2 mi)) as [vs|] eqn:E; [|reflexivity].
    apply (K y m d h mi Hy) in E. destruct E as [-> R]. cbn [ymd_time]. destruct (valid_dateb (Date y m d)) eqn:V; [|reflexivity]. exfalso. apply O. apply valid_dateb_spec in V. unfold solrad_row. tauto.
Qed.
Print Assumptions C149_solrad.
(** values are kept, save -9999.9, which is nan *)
Theorem C149_missing : forall x, (x = #(- (9999.9)) -> surfrad_missing x = NaN) /\ (x <> #(- (9999.9)) -> surfrad_missing x = x).
Proof.
  intros x. unfold surfrad_missing. split; intros H.
  - subst x. rewrite feqb_fin. unfold Reqb. destruct (Req_EM_T (- (9999.9)) (- (9999.9))); [reflexivity|congruence].
  - destruct x as [r| | |]; try reflexivity. rewrite feqb_fin. unfold Reqb. destruct (Req_EM_T r (- (9999.9))) as [E|E]; [exfalso; apply H; rewrite E; reflexivity|reflexivity].
Qed.
Print Assumptions C149_missing.
(** the site line: latitude, longitude, elevation first; SURFRAD's version last, SOLRAD's time zone fourth *)
Theorem C149_site : forall py_float py_int station a b c d rest x y z, py_float a = Some x -> py_float b = Some y -> py_float c = Some z ->
  (forall v last, List.last (c :: rest) "" = last -> py_int last = Some v -> surfrad_meta py_float py_int station (a :: b :: c :: rest) = Ok (strip station, x, y, z, v)) /\
  (forall v, py_int d = Some v -> solrad_meta py_float py_int station (a :: b :: c :: d :: rest) = Ok (strip station, x, y, z, v)).
Proof.
  intros * A B C. unfold surfrad_meta, solrad_meta. split.
  - intros v last L V. assert (E : nth_error (rev (a :: b :: c :: rest)) 0 = Some last).
    { destruct (exists_last (l := c :: rest)) as (l' & w & E); [discriminate|]. rewrite E, last_last in L. subst w. change (a :: b :: c :: rest) with ([a; b] ++ (c :: rest)). rewrite E, app_assoc, rev_app_distr. reflexivity. }
    rewrite E. cbn [nth_error cell_float cell_int]. rewrite A, B, C, V. reflexivity.
  - intros v V. cbn [nth_error cell_float cell_int]. rewrite A, B, C, V. reflexivity.
Qed.
Print Assumptions C149_site.
Example C149_nonvacuous : surfrad_index [(2003, 1, 0, 0); (2003, 1, 0, 1); (2004, 366, 23, 59)] = Ok [instant (Date 2003 1 1) 0 0; instant (Date 2003 1 1) 0 1; instant (Date 2004 12 31) 23 59] /\
  solrad_index [(2019, 2, 5, 3, 7)] = Ok [instant (Date 2019 2 5) 3 7] /\ solrad_index [(2019, 2, 29, 3, 7)] = Err ValueError.
Proof. repeat split; vm_compute; reflexivity. Qed.

(** two fields read from one number *)
Definition merged (a : nat) (oka : Z -> bool) (b : nat) (okb : Z -> bool) : item := Fld (a + b) (a + b) (fun v => oka (v / 10 ^ Z.of_nat b) && okb (v mod 10 ^ Z.of_nat b)) 0.
Definition split_val (b : nat) (F : list Z -> list Z) (ws : list Z) : list Z := match ws with v :: ws' => v / 10 ^ Z.of_nat b :: v mod 10 ^ Z.of_nat b :: F ws' | [] => [] end.
Definition keep_val (F : list Z -> list Z) (ws : list Z) : list Z := match ws with v :: ws' => v :: F ws' | [] => [] end.
Definition reads (fs fs' : list item) (F : list Z -> list Z) : Prop := forall vs s, exact_parts fs vs s <-> exists ws, exact_parts fs' ws s /\ vs = F ws.
Lemma val_two q1 q2 : Forall (fun c => digit c = true) q2 -> val (q1 ++ q2) = val q1 * 10 ^ Z.of_nat (List.length q2) + val q2 /\ 0 <= val q2 < 10 ^ Z.of_nat (List.length q2).
Proof.
  induction q2 as [|c q2 IH] using rev_ind; intros D; [rewrite app_nil_r; cbn; lia|]. apply Forall_app in D. destruct D as [D1 D2]. inversion D2; subst. rewrite digit_spec in *. destruct (IH D1) as [E B].
  rewrite app_assoc, !val_app, E, app_length. cbn [List.length]. rewrite Nat.add_1_r, Nat2Z.inj_succ, Z.pow_succ_r by lia. split; [ring|lia].
Qed.
Lemma reads_nil : reads [] [] (fun l => l).
Proof. intros vs s. split; [intros H; exists vs; auto|intros (ws & H & ->); exact H]. Qed.
Lemma reads_lit c fs fs' F : reads fs fs' F -> reads (Lit c :: fs) (Lit c :: fs') F.
Proof.
  intros R vs s. split.
  - intros H. inversion H; subst. match goal with E : exact_parts fs _ _ |- _ => apply R in E; destruct E as (ws & E & ->) end. exists ws. split; [apply ep_lit; assumption|reflexivity].
  - intros (ws & H & ->). inversion H; subst. constructor. apply R. exists ws. auto.
Qed.
Lemma reads_keep w wmin ok lo fs fs' F : reads fs fs' F -> reads (Fld w wmin ok lo :: fs) (Fld w wmin ok lo :: fs') (keep_val F).
Proof.
  intros R vs s. split.
  - intros H. inversion H; subst. match goal with E : exact_parts fs _ _ |- _ => apply R in E; destruct E as (ws & E & ->) end. exists (val q :: ws). split; [constructor; auto|reflexivity].
  - intros (ws & H & ->). inversion H; subst. cbn [keep_val]. constructor; try assumption; try reflexivity. apply R. exists vs. auto.
Qed.
Lemma reads_split a amin oka alo b bmin okb blo fs fs' F : reads fs fs' F -> reads (Fld a amin oka alo :: Fld b bmin okb blo :: fs) (merged a oka b okb :: fs') (split_val b F).
Proof.
  intros R vs s. split.
  - intros H. inversion H as [| |? ? ? ? ? q1 vs1 s1 D1 L1 V1 H1]; subst. inversion H1 as [| |? ? ? ? ? q2 vs2 s2 D2 L2 V2 H2]; subst. apply R in H2. destruct H2 as (ws & H2 & ->).
    destruct (val_two q1 q2 D2) as [E B]. exists (val (q1 ++ q2) :: ws). assert (P : 0 < 10 ^ Z.of_nat (List.length q2)) by lia.
    assert (Q : val (q1 ++ q2) / 10 ^ Z.of_nat (List.length q2) = val q1) by (rewrite E, Z.div_add_l, Z.div_small by lia; ring).
    assert (M : val (q1 ++ q2) mod 10 ^ Z.of_nat (List.length q2) = val q2) by (rewrite E, Z.add_comm, Z.mod_add, Z.mod_small by lia; reflexivity).
    split; [|cbn [split_val]; rewrite Q, M; reflexivity]. rewrite app_assoc. unfold merged. constructor; [apply Forall_app; split; assumption|apply app_length|rewrite Q, M, V1, V2; reflexivity|exact H2].
  - intros (ws & H & ->). unfold merged in H. inversion H as [| |? ? ? ? ? q vs1 s1 D L V H1]; subst. cbn [split_val]. rewrite <- (firstn_skipn a q) in D, V |- *. set (q1 := firstn a q) in *. set (q2 := skipn a q) in *.
    assert (L1 : List.length q1 = a) by (unfold q1; rewrite firstn_length; lia). assert (L2 : List.length q2 = b) by (unfold q2; rewrite skipn_length; lia).
    apply Forall_app in D. destruct D as [D1 D2]. destruct (val_two q1 q2 D2) as [E B]. rewrite L2 in *. assert (P : 0 < 10 ^ Z.of_nat b) by lia.
    assert (Q : val (q1 ++ q2) / 10 ^ Z.of_nat b = val q1) by (rewrite E, Z.div_add_l, Z.div_small by lia; ring).
    assert (M : val (q1 ++ q2) mod 10 ^ Z.of_nat b = val q2) by (rewrite E, Z.add_comm, Z.mod_add, Z.mod_small by lia; reflexivity).
    rewrite Q, M in *. apply andb_true_iff in V. destruct V as [V1 V2]. rewrite <- app_assoc. constructor; try assumption. constructor; try assumption. apply R. exists vs1. auto.
Qed.
Lemma strptime_reads fs fs' F xs vs : reads fs fs' F -> narrow fs -> positive_width fs' -> total fs = total fs' -> List.length xs = arity fs' ->
  strptime fs (padded fs' xs) = Some vs <-> vs = F xs /\ fits fs' xs.
Proof.
  intros R N P T L. rewrite strptime_exact by (try exact N; rewrite T; apply padded_length; exact L). rewrite (R vs). split.
  - intros (ws & H & ->). apply padded_exact in H; [|exact P|exact L]. destruct H as [-> H]. auto.
  - intros [-> H]. exists xs. split; [apply padded_exact; [exact P|exact L|]; auto|reflexivity].
Qed.

(** ** C150: CRN and MIDC time stamps: times HHMM given as numbers, 5 being five past midnight *)
Definition hhmm (t : Z) : Prop := 0 <= t /\ t / 100 <= 23 /\ t mod 100 <= 59.
Definition minutes (t : Z) : Z := 60 * (t / 100) + t mod 100.
Definition midc_row (r : Z * Z * Z) : Prop := let '(y, j, t) := r in y <= 9999 /\ 1 <= j <= 366 /\ hhmm t.
Theorem C150_midc : forall rows, Forall (fun '(y, _, _) => 1000 <= y) rows ->
  (Forall midc_row rows -> midc_raw_index rows = Ok (map (fun '(y, j, t) => instant (Date y 1 1) 0 (minutes t) + 1440 * (j - 1)) rows)) /\
  (~ Forall midc_row rows -> midc_raw_index rows = Err ValueError).
Proof.
  intros rows Y. assert (K : forall y j t, 1000 <= y -> forall vs, strptime [fY; fj; fH; fM] (str y ++ zpad 3 j ++ zpad 4 t) = Some vs <-> vs = [y; j; t / 100; t mod 100] /\ midc_row (y, j, t)).
  { intros y j t Hy vs. rewrite str_year by exact Hy. rewrite <- (app_nil_r (zpad 4 t)).
    change (zpad 4 y ++ zpad 3 j ++ zpad 4 t ++ []) with (padded [fY; fj; merged 2 (fun v => v <=? 23) 2 (fun v => v <=? 59)] [y; j; t]).
    rewrite (strptime_reads _ _ (keep_val (keep_val (split_val 2 (fun l => l))))); [|apply reads_keep, reads_keep, reads_split, reads_nil|fields|fields|reflexivity|reflexivity].
    cbn [fits fY fj merged keep_val split_val]. change (2 + 2)%nat with 4%nat. rewrite pow4, pow3, pow2, !andb_true_iff, !Z.leb_le. unfold midc_row, hhmm.
    assert (B : t / 100 <= 23 -> t < 10000) by (intros; pose proof (Z.div_mod t 100); pose proof (Z.mod_pos_bound t 100); lia). intuition lia. }
  unfold midc_raw_index. clear -Y K. induction Y as [|[[y j] t] rows Hy Y [IH1 IH2]]; [split; [reflexivity|intros N; exfalso; apply N; constructor]|]. cbn [mapM map].
  assert (DEC : midc_row (y, j, t) \/ ~ midc_row (y, j, t)) by (unfold midc_row, hhmm; lia). destruct DEC as [O|O].
  - rewrite (proj2 (K y j t Hy _) (conj eq_refl O)). cbn [doy_time bind].
    assert (E : on_day y j (t / 100) (t mod 100) = instant (Date y 1 1) 0 (minutes t) + 1440 * (j - 1)) by (unfold on_day, instant, ordinal, minutes; cbn [Calendar.yr mo dy]; change (days_before_month y 1) with 0; ring).
    split; intros F.
    + rewrite IH1 by (inversion F; assumption). cbn [bind]. rewrite E. reflexivity.
    + rewrite IH2; [reflexivity|]. intros G. apply F. constructor; assumption.
  - destruct (strptime [fY; fj; fH; fM] (str y ++ zpad 3 j ++ zpad 4 t)) as [vs|] eqn:E; [apply (K y j t Hy) in E; tauto|].
    split; [intros F; inversion F; contradiction|reflexivity].
Qed.
Print Assumptions C150_midc.
(** a date YYYYMMDD *)
Definition as_date (d : Z) : date := Date (d / 10000) (d / 100 mod 100) (d mod 100).
Definition crn_row (r : Z * Z) : Prop := let '(d, t) := r in d <= 99999999 /\ valid_date (as_date d) /\ hhmm t.
Theorem C150_crn : forall rows, Forall (fun '(d, _) => 10000000 <= d) rows ->
  (Forall crn_row rows -> crn_index rows = Ok (map (fun '(d, t) => instant (as_date d) 0 (minutes t)) rows)) /\
  (~ Forall crn_row rows -> crn_index rows = Err ValueError).
Proof.
  intros rows Y. assert (K : forall d t, 10000000 <= d -> forall vs, strptime [fY; fm; fd; fH; fM] (str d ++ zpad 4 t) = Some vs <->
      vs = [d / 10000; d / 100 mod 100; d mod 100; t / 100; t mod 100] /\ d <= 99999999 /\ 1 <= d / 100 mod 100 <= 12 /\ 1 <= d mod 100 <= 31 /\ hhmm t).
  { intros d t Hd vs. rewrite str_date by exact Hd. rewrite <- (app_nil_r (zpad 4 t)).
    set (okm := fun v => (1 <=? v) && (v <=? 12)). set (okd := fun v => (1 <=? v) && (v <=? 31)).
    set (okmd := fun v => okm (v / 10 ^ Z.of_nat 2) && okd (v mod 10 ^ Z.of_nat 2)). set (okH := fun v => v <=? 23). set (okM := fun v => v <=? 59).
    change (zpad 8 d ++ zpad 4 t ++ []) with (padded [merged 4 (fun _ => true) 4 okmd; merged 2 okH 2 okM] [d; t]).
    assert (R : reads [fY; fm; fd; fH; fM] [merged 4 (fun _ => true) 4 okmd; merged 2 okH 2 okM] (fun ws => match ws with [d; t] => [d / 10000; (d mod 10000) / 100; (d mod 10000) mod 100; t / 100; t mod 100] | _ => [] end)).
    { intros vs' s. split.
      - intros H. assert (R1 : reads [fY; fm; fd; fH; fM] [fY; merged 2 okm 2 okd; merged 2 okH 2 okM] (keep_val (split_val 2 (split_val 2 (fun l => l))))) by apply reads_keep, reads_split, reads_split, reads_nil.
        apply R1 in H. destruct H as (ws1 & H & ->).
        assert (R2 : reads [fY; merged 2 okm 2 okd; merged 2 okH 2 okM] [merged 4 (fun _ => true) 4 okmd; merged 2 okH 2 okM] (split_val 4 (keep_val (fun l => l)))) by (unfold merged; apply (reads_split 4 4 (fun _ => true) 0 4 4 okmd 0); apply reads_keep, reads_nil).
        apply R2 in H. destruct H as (ws & H & ->). exists ws. split; [exact H|]. inversion H as [| |? ? ? ? ? q1 vs1 s1 D1 L1 V1 H1]; subst. inversion H1 as [| |? ? ? ? ? q2 vs2 s2 D2 L2 V2 H2]; subst. inversion H2; subst. reflexivity.
      - intros (ws & H & ->). assert (R1 : reads [fY; fm; fd; fH; fM] [fY; merged 2 okm 2 okd; merged 2 okH 2 okM] (keep_val (split_val 2 (split_val 2 (fun l => l))))) by apply reads_keep, reads_split, reads_split, reads_nil.
        assert (R2 : reads [fY; merged 2 okm 2 okd; merged 2 okH 2 okM] [merged 4 (fun _ => true) 4 okmd; merged 2 okH 2 okM] (split_val 4 (keep_val (fun l => l)))) by (unfold merged; apply (reads_split 4 4 (fun _ => true) 0 4 4 okmd 0); apply reads_keep, reads_nil).
        apply R1. exists (split_val 4 (keep_val (fun l => l)) ws). split; [apply R2; exists ws; auto|]. inversion H as [| |? ? ? ? ? q1 vs1 s1 D1 L1 V1 H1]; subst. inversion H1 as [| |? ? ? ? ? q2 vs2 s2 D2 L2 V2 H2]; subst. inversion H2; subst. reflexivity. }
    rewrite (strptime_reads _ _ _ _ _ R); [|fields|fields|reflexivity|reflexivity].
    cbn [fits merged]. change (2 + 2)%nat with 4%nat. change (4 + 4)%nat with 8%nat. unfold okmd, okm, okd, okH, okM. rewrite pow8, pow4, pow2, !andb_true_iff, !Z.leb_le. unfold hhmm.
    assert (E1 : d mod 10000 / 100 = d / 100 mod 100) by (Z.to_euclidean_division_equations; lia). assert (E2 : (d mod 10000) mod 100 = d mod 100) by (Z.to_euclidean_division_equations; lia). rewrite E1, E2.
    assert (B : t / 100 <= 23 -> t < 10000) by (intros; pose proof (Z.div_mod t 100); pose proof (Z.mod_pos_bound t 100); lia). intuition lia. }
  unfold crn_index. clear -Y K. induction Y as [|[d t] rows Hy Y [IH1 IH2]]; [split; [reflexivity|intros N; exfalso; apply N; constructor]|]. cbn [mapM map].
  assert (DEC : crn_row (d, t) \/ ~ crn_row (d, t)) by (unfold crn_row, hhmm; destruct (valid_dec (as_date d)); lia || tauto). destruct DEC as [O|O].
  - assert (Q : d <= 99999999 /\ 1 <= d / 100 mod 100 <= 12 /\ 1 <= d mod 100 <= 31 /\ hhmm t) by (destruct O as (O1 & [O2 O3] & O4); cbn [as_date Calendar.yr mo dy] in *; pose proof (days_in_month_bounds (d / 10000) (d / 100 mod 100)); repeat split; try lia; apply O4).
    rewrite (proj2 (K d t Hy _) (conj eq_refl Q)). cbn [ymd_time]. rewrite (proj2 (valid_dateb_spec _)) by (exact (proj1 (proj2 O))). cbn [bind].
    assert (E : instant (Date (d / 10000) (d / 100 mod 100) (d mod 100)) (t / 100) (t mod 100) = instant (as_date d) 0 (minutes t)) by (unfold instant, minutes, as_date; ring). split; intros F.
    + rewrite IH1 by (inversion F; assumption). cbn [bind]. rewrite E. reflexivity.
    + rewrite IH2; [reflexivity|]. intros G. apply F. constructor; assumption.
  - split; [intros F; inversion F; contradiction|intros _]. destruct (strptime [fY; fm; fd; fH; fM] (str d ++ zpad 4 t)) as [vs|] eqn:E; [|reflexivity].
    apply (K d t Hy) in E. destruct E as [-> R]. cbn [ymd_time]. destruct (valid_dateb (Date (d / 10000) (d / 100 mod 100) (d mod 100))) eqn:V; [|reflexivity]. exfalso. apply O. apply valid_dateb_spec in V. unfold crn_row. tauto.
Qed.
Print Assumptions C150_crn.
Example C150_nonvacuous : crn_index [(20190101, 5); (20190101, 2355)] = Ok [instant (Date 2019 1 1) 0 5; instant (Date 2019 1 1) 23 55] /\ midc_raw_index [(2018, 182, 1)] = Ok [instant (Date 2018 7 1) 0 1].
Proof. split; vm_compute; reflexivity. Qed.

(** ** C151: SRML time stamps.  A file gives the end of each interval; the labels are the starts *)
Definition ends (t : Z) : Prop := 0 <= t <= 2400 /\ t mod 100 <= 59.
Lemma srml_one year doy t : 1000 <= year -> forall vs, strptime [fY; Lit dash; fj; Lit dash; fH; fM] (str year ++ dash :: zpad 3 doy ++ dash :: zpad 4 t) = Some vs <->
  vs = [year; doy; t / 100; t mod 100] /\ year <= 9999 /\ 1 <= doy <= 366 /\ hhmm t.
Proof.
  intros Hy vs. rewrite str_year by exact Hy. rewrite <- (app_nil_r (zpad 4 t)).
  change (zpad 4 year ++ dash :: zpad 3 doy ++ dash :: zpad 4 t ++ []) with (padded [fY; Lit dash; fj; Lit dash; merged 2 (fun v => v <=? 23) 2 (fun v => v <=? 59)] [year; doy; t]).
  rewrite (strptime_reads _ _ (keep_val (keep_val (split_val 2 (fun l => l))))); [|apply reads_keep, reads_lit, reads_keep, reads_lit, reads_split, reads_nil|fields|fields|reflexivity|reflexivity].
  cbn [fits fY fj merged keep_val split_val]. change (2 + 2)%nat with 4%nat. rewrite pow4, pow3, pow2, !andb_true_iff, !Z.leb_le. unfold hhmm.
  assert (B : t / 100 <= 23 -> t < 10000) by (intros; pose proof (Z.div_mod t 100); pose proof (Z.mod_pos_bound t 100); lia). intuition lia.
Qed.
Lemma on_day_doy y j h m : on_day y j h m = instant (Date y 1 1) h m + 1440 * (j - 1).
Proof. unfold on_day, instant, ordinal. cbn [Calendar.yr mo dy]. change (days_before_month y 1) with 0. ring. Qed.
(** C151: if the first two rows are less than forty minutes apart and in the same hour, or one hour apart, every row is labelled with the start of its interval *)
Theorem C151_index : forall year d0 t0 d1 t1 rest, 1000 <= year <= 9999 ->
  let rows := (d0, t0) :: (d1, t1) :: rest in let step := minutes t1 - minutes t0 in
  (1 <= t1 - t0 < 40 \/ t1 - t0 = 100) -> Forall (fun '(d, t) => 1 <= d <= 366 /\ ends t /\ step <= minutes t) rows ->
  srml_index year rows = Ok (map (fun '(d, t) => instant (Date year 1 1) 0 (minutes t) + 1440 * (d - 1) - step) rows).
Proof.
  intros year d0 t0 d1 t1 rest Y rows step L F. unfold srml_index, rows. fold rows. set (L' := t1 - t0) in *.
  assert (ST : step = if L' =? 100 then 60 else L').
  { pose proof (Forall_inv F) as (_ & [B0 M0] & _). pose proof (Forall_inv (Forall_inv_tail F)) as (_ & [B1 M1] & _). unfold step, minutes, L' in *. pose proof (Z.div_mod t0 100). pose proof (Z.div_mod t1 100). pose proof (Z.mod_pos_bound t0 100). pose proof (Z.mod_pos_bound t1 100).
    destruct (Z.eqb_spec (t1 - t0) 100); Z.to_euclidean_division_equations; lia. }
  assert (ONE : forall d t, 1 <= d <= 366 /\ ends t /\ step <= minutes t ->
    doy_time (strptime [fY; Lit dash; fj; Lit dash; fH; fM] (str year ++ dash :: zpad 3 d ++ dash :: zpad 4 (srml_shift L' t))) = Ok (instant (Date year 1 1) 0 (minutes t) + 1440 * (d - 1) - step)).
  { intros d t (D & [B M] & S). assert (G : hhmm (srml_shift L' t) /\ minutes (srml_shift L' t) = minutes t - step).
    { rewrite ST in *. clear ST F. clearbody L'. clear step rows. unfold srml_shift, hhmm, minutes in *. destruct (Z.eqb_spec L' 100) as [->|N].
      - Z.to_euclidean_division_equations; lia.
      - destruct (Z.ltb_spec 60 ((t - L') mod 100)) as [H|H]; Z.to_euclidean_division_equations; lia. }
    destruct G as [G1 G2]. rewrite (proj2 (srml_one year d (srml_shift L' t) (proj1 Y) _) (conj eq_refl (conj (proj2 Y) (conj D G1)))). cbn [doy_time]. f_equal. rewrite on_day_doy.
    transitivity (instant (Date year 1 1) 0 (minutes (srml_shift L' t)) + 1440 * (d - 1)); [unfold instant, minutes; ring|]. rewrite G2. unfold instant. ring. }
  clearbody L' rows step. clear -F ONE. induction F as [|[d t] rows H F IH]; [reflexivity|]. cbn [mapM map]. rewrite (ONE d t H). cbn [bind]. rewrite IH. reflexivity.
Qed.
Print Assumptions C151_index.
Theorem C151_errors : forall year rows, 1000 <= year ->
  ((List.length rows < 2)%nat <-> srml_index year rows = Err KeyError) /\ (forall e, srml_index year rows = Err e -> e = KeyError \/ e = ValueError) /\
  (forall d0 t0 d1 t1 rest d t, rows = (d0, t0) :: (d1, t1) :: rest -> In (d, t) rows -> t < t1 - t0 -> srml_index year rows = Err ValueError) /\
  (forall d0 t0 d1 t1 rest d t, rows = (d0, t0) :: (d1, t1) :: rest -> In (d, t) rows -> ~ hhmm (srml_shift (t1 - t0) t) -> srml_index year rows = Err ValueError).
Proof.
  intros year rows Y. assert (EV : forall o e, doy_time o = Err e -> e = ValueError).
  { intros [[|y [|j [|h [|m [|x l]]]]]|] e E; cbn in E; congruence. }
  assert (G : forall (f : Z * Z -> option (list Z)) l e, mapM (fun r => doy_time (f r)) l = Err e -> e = ValueError).
  { intros f l. induction l as [|x l IH]; intros e E; [discriminate|]. cbn [mapM] in E. destruct (doy_time (f x)) eqn:D; cbn [bind] in E; [|injection E as <-; exact (EV _ _ D)].
    destruct (mapM (fun r => doy_time (f r)) l); [discriminate|]. cbn [bind] in E. injection E as <-. apply IH. reflexivity. }
  assert (FE : forall L l e, mapM (fun r : Z * Z => let '(doy, t) := r in doy_time (strptime [fY; Lit dash; fj; Lit dash; fH; fM] (str year ++ dash :: zpad 3 doy ++ dash :: zpad 4 (srml_shift L t)))) l = Err e -> e = ValueError).
  { intros L l e E. apply (G (fun r => strptime [fY; Lit dash; fj; Lit dash; fH; fM] (str year ++ dash :: zpad 3 (fst r) ++ dash :: zpad 4 (srml_shift L (snd r)))) l). rewrite <- E.
    clear. induction l as [|[d t] l IH]; [reflexivity|]. cbn [mapM fst snd]. rewrite IH. reflexivity. }
  assert (FE2 : forall L l d t, In (d, t) l -> ~ hhmm (srml_shift L t) -> mapM (fun r : Z * Z => let '(doy, t) := r in doy_time (strptime [fY; Lit dash; fj; Lit dash; fH; fM] (str year ++ dash :: zpad 3 doy ++ dash :: zpad 4 (srml_shift L t)))) l = Err ValueError).
  { intros L l d t I N. match goal with |- mapM ?f l = _ => destruct (mapM f l) as [ls|e] eqn:E end; [|apply FE in E; congruence]. exfalso. apply mapM_Forall2 in E.
    assert (K : exists y, doy_time (strptime [fY; Lit dash; fj; Lit dash; fH; fM] (str year ++ dash :: zpad 3 d ++ dash :: zpad 4 (srml_shift L t))) = Ok y).
    { clear -E I. induction E as [|x y l l' HX E IH]; [destruct I|]. destruct I as [->|I]; [exists y; exact HX|apply IH; exact I]. }
    destruct K as [y K]. destruct (strptime [fY; Lit dash; fj; Lit dash; fH; fM] (str year ++ dash :: zpad 3 d ++ dash :: zpad 4 (srml_shift L t))) as [vs|] eqn:S; [|discriminate].
    apply (srml_one year d _ Y) in S. destruct S as (_ & _ & _ & B). exact (N B). }
  unfold srml_index. split; [|split; [|split]].
  - destruct rows as [|[d0 t0] [|[d1 t1] rest]]; [split; [reflexivity|cbn; lia]|split; [reflexivity|cbn; lia]|]. split; [cbn; lia|]. intros E. apply FE in E. discriminate.
  - intros e. destruct rows as [|[d0 t0] [|[d1 t1] rest]]; [intros E; left; congruence|intros E; left; congruence|]. intros E. right. exact (FE _ _ _ E).
  - intros d0 t0 d1 t1 rest d t -> I H. apply FE2 with (d := d) (t := t); [exact I|]. intros [B _]. unfold srml_shift in B. destruct (t1 - t0 =? 100); [lia|]. destruct (60 <? (t - (t1 - t0)) mod 100); lia.
  - intros d0 t0 d1 t1 rest d t -> I H. apply FE2 with (d := d) (t := t); [exact I|]. exact H.
Qed.
Print Assumptions C151_errors.
(** but a file of half hours from the beginning of the day is refused, and so is every file that starts with the last interval of an hour and goes on with the first two of the next *)
Theorem C151_half_hours_refuted : forall year d0 d1 rest, 1000 <= year -> srml_index year ((d0, 30) :: (d1, 100) :: rest) = Err ValueError.
Proof. intros year d0 d1 rest Y. destruct (C151_errors year ((d0, 30) :: (d1, 100) :: rest) Y) as (_ & _ & E & _). apply E with (d := d0) (t := 30) (1 := eq_refl); [left; reflexivity|lia]. Qed.
Print Assumptions C151_half_hours_refuted.
Theorem C151_last_interval_refuted : forall year d0 d1 d2 h s rest, 1000 <= year -> 1 <= s <= 59 ->
  srml_index year ((d0, 100 * h + (60 - s)) :: (d1, 100 * (h + 1)) :: (d2, 100 * (h + 1) + s) :: rest) = Err ValueError.
Proof.
  intros year d0 d1 d2 h s rest Y S. destruct (C151_errors year ((d0, 100 * h + (60 - s)) :: (d1, 100 * (h + 1)) :: (d2, 100 * (h + 1) + s) :: rest) Y) as (_ & _ & _ & E).
  apply E with (d := d2) (t := 100 * (h + 1) + s) (1 := eq_refl); [right; right; left; reflexivity|]. unfold srml_shift, hhmm.
  destruct (Z.eqb_spec (100 * (h + 1) - (100 * h + (60 - s))) 100); [lia|]. replace (100 * (h + 1) + s - (100 * (h + 1) - (100 * h + (60 - s)))) with (60 + h * 100) by ring.
  rewrite Z.mod_add, Z.mod_small by lia. change (60 <? 60) with false. cbv iota. rewrite Z.mod_add, Z.mod_small by lia. lia.
Qed.
Print Assumptions C151_last_interval_refuted.
Example C151_nonvacuous : srml_index 2018 [(1, 5); (1, 10); (1, 100); (31, 2400)] = Ok [instant (Date 2018 1 1) 0 0; instant (Date 2018 1 1) 0 5; instant (Date 2018 1 1) 0 55; instant (Date 2018 1 31) 23 55] /\
  srml_index 2018 [(1, 100); (1, 200)] = Ok [instant (Date 2018 1 1) 0 0; instant (Date 2018 1 1) 1 0].
Proof. split; vm_compute; reflexivity. Qed.

(** ** C152: SRML columns *)
(** a variable column and its flag column *)
Record column := Column { c_name : string; c_flag_name : string; c_values : list fl; c_flags : list fl }.
Definition file_columns (cs : list column) : list (string * list fl) := flat_map (fun c => [(c_name c, c_values c); (c_flag_name c, c_flags c)]) cs.
Definition flag_of (name : string) : string := (name ++ "_flag")%string.
Definition masked (c : column) : list fl := map (fun p => if feqb (snd p) #99 then NaN else fst p) (combine (c_values c) (c_flags c)).
Definition result_columns (cs : list column) : list (string * list fl) := flat_map (fun c => [(c_name c, masked c); (flag_of (c_name c), c_flags c)]) cs.
Lemma evens_names cs : evens (map fst (file_columns cs)) = map c_name cs.
Proof. induction cs as [|c cs IH]; [reflexivity|]. cbn. f_equal. exact IH. Qed.
Lemma odds_names cs : odds (map fst (file_columns cs)) = map c_flag_name cs.
Proof. induction cs as [|c cs IH]; [reflexivity|]. cbn. f_equal. exact IH. Qed.
Lemma get_loc_app name l r : ~ In name l -> get_loc name (l ++ name :: r) = List.length l.
Proof. induction l as [|x l IH]; intros N; cbn [app get_loc]; [rewrite String.eqb_refl; reflexivity|]. destruct (String.eqb_spec x name) as [->|]; [exfalso; apply N; left; reflexivity|]. cbn [List.length]. f_equal. apply IH. intros I. apply N. right. exact I. Qed.
Lemma names_app a b : map fst (file_columns (a ++ b)) = map fst (file_columns a) ++ map fst (file_columns b).
Proof. unfold file_columns. rewrite flat_map_app, map_app. reflexivity. Qed.
Lemma lookup_map_In (f : string -> string) l k : In k l -> lookup k (map (fun x => (x, f x)) l) = Some (f k).
Proof. induction l as [|x l IH]; [intros []|]. intros I. cbn. destruct (String.eqb_spec k x) as [->|N]; [reflexivity|]. apply IH. destruct I as [->|I]; [congruence|exact I]. Qed.
Lemma lookup_map_notin (f : string -> string) l k : ~ In k l -> lookup k (map (fun x => (x, f x)) l) = None.
Proof. induction l as [|x l IH]; [reflexivity|]. intros I. cbn. destruct (String.eqb_spec k x) as [->|N]; [exfalso; apply I; left; reflexivity|]. apply IH. intros J. apply I. right. exact J. Qed.
Lemma flag_inj a b : flag_of a = flag_of b -> a = b.
Proof.
  unfold flag_of. revert b. induction a as [|x a IH]; intros b E.
  - destruct b as [|y b]; [reflexivity|]. exfalso. assert (L := f_equal String.length E). rewrite !length_app in L. cbn in L. lia.
  - destruct b as [|y b]; [exfalso; assert (L := f_equal String.length E); rewrite !length_app in L; cbn in L; lia|]. cbn [append] in E. injection E as -> E. f_equal. apply IH. exact E.
Qed.
Definition distinct_columns (cs : list column) : Prop :=
  NoDup (map fst (file_columns cs)) /\ (forall a b, In a cs -> In b cs -> c_name a <> flag_of (c_name b)).
Lemma in_names c cs : In c cs -> In (c_name c) (map fst (file_columns cs)) /\ In (c_flag_name c) (map fst (file_columns cs)).
Proof. intros I. unfold file_columns. split; apply in_map_iff; [exists (c_name c, c_values c)|exists (c_flag_name c, c_flags c)]; (split; [reflexivity|apply in_flat_map; exists c; split; [exact I|cbn; auto]]). Qed.
(** the loop over the variables: those done are masked, those to come are not *)
Definition renamed (cs : list column) : list (string * list fl) := flat_map (fun c => [(c_name c, c_values c); (flag_of (c_name c), c_flags c)]) cs.
Lemma lookup_flag don todo c rest : todo = c :: rest -> NoDup (map c_name (don ++ todo)) -> (forall a b, In a (don ++ todo) -> In b (don ++ todo) -> c_name a <> flag_of (c_name b)) ->
  lookup (flag_of (c_name c)) (result_columns don ++ renamed todo) = Some (c_flags c).
Proof.
  intros -> ND NF. assert (IC : In c (don ++ c :: rest)) by (apply in_or_app; right; left; reflexivity).
  assert (H : forall d, incl d don -> lookup (flag_of (c_name c)) (result_columns d ++ renamed (c :: rest)) = Some (c_flags c)).
  { induction d as [|x d IH]; intros I.
    - cbn [result_columns flat_map app renamed]. cbn [lookup]. destruct (String.eqb_spec (flag_of (c_name c)) (c_name c)) as [E|_]; [exfalso; apply (NF c c IC IC); symmetry; exact E|]. rewrite String.eqb_refl. reflexivity.
    - assert (IX : In x (don ++ c :: rest)) by (apply in_or_app; left; apply I; left; reflexivity). cbn [result_columns flat_map app lookup].
      destruct (String.eqb_spec (flag_of (c_name c)) (c_name x)) as [E|_]; [exfalso; apply (NF x c IX IC); symmetry; exact E|].
      destruct (String.eqb_spec (flag_of (c_name c)) (flag_of (c_name x))) as [E|_].
      + exfalso. apply flag_inj in E. rewrite map_app in ND. cbn [map] in ND. apply NoDup_remove_2 in ND. apply ND. apply in_or_app. left. rewrite E. apply in_map. apply I. left. reflexivity.
      + apply IH. intros y J. apply I. right. exact J. }
  apply H. apply incl_refl.
Qed.
Lemma mask_loop : forall todo don, NoDup (map c_name (don ++ todo)) -> (forall a b, In a (don ++ todo) -> In b (don ++ todo) -> c_name a <> flag_of (c_name b)) ->
  srml_mask_all (result_columns don ++ renamed todo) (map c_name todo) = Ok (result_columns (don ++ todo)).
Proof.
  induction todo as [|c todo IH]; intros don ND NF; cbn [map srml_mask_all].
  - cbn [renamed flat_map]. rewrite !app_nil_r. reflexivity.
  - unfold srml_mask. fold (flag_of (c_name c)). rewrite (lookup_flag don (c :: todo) c todo eq_refl ND NF). cbn [bind].
    set (step := map _ (result_columns don ++ renamed (c :: todo))). assert (E : step = result_columns (don ++ [c]) ++ renamed todo).
    { unfold step. assert (IC : In c (don ++ c :: todo)) by (apply in_or_app; right; left; reflexivity).
      assert (OTHER : forall x, In x (don ++ todo) -> c_name x <> c_name c). { intros x I E. rewrite map_app in ND. cbn [map] in ND. apply NoDup_remove_2 in ND. apply ND. rewrite <- map_app, <- E. apply in_map. exact I. }
      assert (FLAG : forall x, In x (don ++ c :: todo) -> flag_of (c_name x) <> c_name c) by (intros x I E; apply (NF c x IC I); symmetry; exact E).
      assert (SAME : forall (g : column -> list fl) d, (forall x, In x d -> In x (don ++ todo)) ->
        map (fun c0 : string * list fl => if String.eqb (fst c0) (c_name c) then (fst c0, map (fun p => if feqb (snd p) #99 then NaN else fst p) (combine (snd c0) (c_flags c))) else c0)
          (flat_map (fun x => [(c_name x, g x); (flag_of (c_name x), c_flags x)]) d) = flat_map (fun x => [(c_name x, g x); (flag_of (c_name x), c_flags x)]) d).
      { intros g. induction d as [|x d IHd]; intros A; [reflexivity|]. cbn [flat_map app map fst snd]. pose proof (A x (or_introl eq_refl)) as A1.
        assert (A2 : In x (don ++ c :: todo)) by (apply in_app_or in A1; apply in_or_app; destruct A1; [left|right; right]; assumption).
        destruct (String.eqb_spec (c_name x) (c_name c)) as [E|_]; [exfalso; exact (OTHER x A1 E)|]. destruct (String.eqb_spec (flag_of (c_name x)) (c_name c)) as [E|_]; [exfalso; exact (FLAG x A2 E)|].
        do 2 f_equal. apply IHd. intros y I. apply A. right. exact I. }
      rewrite map_app. unfold result_columns at 2. rewrite flat_map_app, <- app_assoc. f_equal.
      - apply (SAME masked don). intros x I. apply in_or_app. left. exact I.
      - cbn [renamed flat_map app map fst snd]. rewrite String.eqb_refl. destruct (String.eqb_spec (flag_of (c_name c)) (c_name c)) as [E|_]; [exfalso; exact (FLAG c IC E)|]. do 2 f_equal.
        apply (SAME c_values todo). intros x I. apply in_or_app. right. exact I. }
    rewrite E. replace (don ++ c :: todo) with ((don ++ [c]) ++ todo) in * by (rewrite <- app_assoc; reflexivity). apply IH; assumption.
Qed.
Lemma nodup_c_names cs : NoDup (map fst (file_columns cs)) -> NoDup (map c_name cs) /\ (forall a b, In a cs -> In b cs -> c_name a <> c_flag_name b).
Proof.
  induction cs as [|c cs IH]; [intros _; split; [constructor|intros a b []]|]. cbn [file_columns flat_map app map fst]. intros H. inversion H as [|? ? N1 H1]; subst. inversion H1 as [|? ? N2 H2]; subst.
  destruct (IH H2) as [I1 I2]. fold (file_columns cs) in *. split.
  - cbn [map]. constructor; [|exact I1]. intros I. apply N1. right. apply in_map_iff in I. destruct I as (x & <- & I). exact (proj1 (in_names x cs I)).
  - intros a b [<-|A] [<-|B] E.
    + apply N1. left. symmetry. exact E.
    + apply N1. right. rewrite E. exact (proj2 (in_names b cs B)).
    + apply N2. rewrite <- E. exact (proj1 (in_names a cs A)).
    + exact (I2 a b A B E).
Qed.
Lemma rename_flags cs : distinct_columns cs ->
  rename (map (fun flag => (flag, nth (get_loc flag (map fst (file_columns cs)) - 1) (map fst (file_columns cs)) "" ++ "_flag")%string) (odds (map fst (file_columns cs)))) (file_columns cs) = renamed cs.
Proof.
  intros [ND _]. rewrite odds_names. destruct (nodup_c_names cs ND) as [_ NF].
  set (new := fun flag => (nth (get_loc flag (map fst (file_columns cs)) - 1) (map fst (file_columns cs)) "" ++ "_flag")%string).
  assert (NEW : forall c, In c cs -> new (c_flag_name c) = flag_of (c_name c)).
  { intros c I. apply in_split in I. destruct I as (l1 & l2 & ->). unfold new. rewrite names_app in *. cbn [file_columns flat_map app map fst] in *. fold (file_columns l2) in *.
    set (n1 := map fst (file_columns l1)) in *. assert (G : ~ In (c_flag_name c) (n1 ++ [c_name c])).
    { replace (n1 ++ c_name c :: c_flag_name c :: map fst (file_columns l2)) with ((n1 ++ [c_name c]) ++ c_flag_name c :: map fst (file_columns l2)) in ND by (rewrite <- app_assoc; reflexivity). apply NoDup_remove_2 in ND. intros J. apply ND. apply in_or_app. left. exact J. }
    replace (n1 ++ c_name c :: c_flag_name c :: map fst (file_columns l2)) with ((n1 ++ [c_name c]) ++ c_flag_name c :: map fst (file_columns l2)) by (rewrite <- app_assoc; reflexivity).
    rewrite get_loc_app by exact G. rewrite app_length. cbn [List.length]. replace (List.length n1 + 1 - 1)%nat with (List.length n1) by lia. rewrite <- app_assoc. cbn [app]. rewrite nth_middle. reflexivity. }
  change (rename (map (fun flag => (flag, new flag)) (map c_flag_name cs)) (file_columns cs) = renamed cs).
  assert (H : forall d, incl d cs -> rename (map (fun flag => (flag, new flag)) (map c_flag_name cs)) (file_columns d) = renamed d); [|apply H, incl_refl].
  induction d as [|c d IH]; intros I; [reflexivity|]. assert (IC : In c cs) by (apply I; left; reflexivity). unfold rename. cbn [file_columns flat_map app map renamed fst snd].
  rewrite (lookup_map_notin new) by (intros J; apply in_map_iff in J; destruct J as (x & E & J); exact (NF c x IC J (eq_sym E))). rewrite (lookup_map_In new) by (apply in_map; exact IC). rewrite (NEW c IC).
  do 2 f_equal. apply IH. intros y J. apply I. right. exact J.
Qed.
(** C152: in a file of variable columns each followed by its flag column, every flag column is renamed after its variable, and values flagged 99 become nan; all other values,
    the flags and the order stay *)
Theorem C152_flags : forall cs, distinct_columns cs -> srml_columns false (file_columns cs) = Ok (result_columns cs).
Proof.
  intros cs D. unfold srml_columns. rewrite rename_flags by exact D. rewrite evens_names. destruct D as [ND NF]. destruct (nodup_c_names cs ND) as [N1 _]. apply (mask_loop cs []); assumption.
Qed.
Print Assumptions C152_flags.
(** with map_variables the same after translating the names *)
Definition translate (c : column) : column := Column (srml_map_column (c_name c)) (srml_map_column (c_flag_name c)) (c_values c) (c_flags c).
Theorem C152_mapped : forall cs, distinct_columns (map translate cs) -> srml_columns true (file_columns cs) = Ok (result_columns (map translate cs)).
Proof.
  intros cs D. rewrite <- (C152_flags _ D). unfold srml_columns. assert (E : map (fun c : string * list fl => (srml_map_column (fst c), snd c)) (file_columns cs) = file_columns (map translate cs)).
  { clear D. induction cs as [|c cs IH]; [reflexivity|]. cbn [file_columns flat_map app map fst snd translate c_name c_flag_name c_values c_flags]. do 2 f_equal. exact IH. }
  rewrite E. reflexivity.
Qed.
Print Assumptions C152_mapped.
(** names: the first three digits tell the variable, the rest the instrument; spectral (7...) and unknown columns and flag columns keep their names *)
Theorem C152_names : forall n inst, In n (map fst srml_variable_map) -> exists name, lookup n srml_variable_map = Some name /\ srml_map_column (n ++ inst) = (name ++ "_" ++ inst)%string.
Proof.
  assert (SUB : forall s k, (String.length s <= k)%nat -> substring 0 k s = s). { induction s as [|c s IH]; intros [|k] H; cbn in *; try reflexivity; try lia. f_equal. apply IH. lia. }
  assert (ONE : forall a b c name inst, String.prefix "7" (String a "") = false -> lookup (String a (String b (String c ""))) srml_variable_map = Some name ->
    srml_map_column (String a (String b (String c "")) ++ inst) = (name ++ "_" ++ inst)%string).
  { intros a b c name inst P L. unfold srml_map_column. assert (P' : String.prefix "7" (String a (String b (String c "")) ++ inst) = false).
    { change (String a (String b (String c "")) ++ inst)%string with (String a (String b (String c inst))). cbn [String.prefix] in *. destruct (ascii_dec "7" a); [discriminate|reflexivity]. }
    rewrite P'. assert (S0 : substring 0 3 (String a (String b (String c "")) ++ inst) = String a (String b (String c ""))) by (destruct inst; reflexivity). rewrite S0, L.
    do 2 f_equal. change (substring 3 (String.length (String a (String b (String c inst)))) (String a (String b (String c inst))) = inst). cbn [String.length substring]. apply SUB. lia. }
  intros n inst I. unfold srml_variable_map in I. cbn [map fst In] in I.
  repeat (destruct I as [<-|I]; [eexists; split; [reflexivity|]; apply ONE; reflexivity|]). destruct I.
Qed.
Print Assumptions C152_names.
Theorem C152_kept : forall col, (forall n inst, col = (n ++ inst)%string -> ~ In n (map fst srml_variable_map)) -> srml_map_column col = col.
Proof.
  intros col H. unfold srml_map_column. destruct (String.prefix "7" col) eqn:P.
  - destruct (lookup col srml_variable_map) as [name|] eqn:L; [|reflexivity]. exfalso. apply (H col "") ; [rewrite sapp_nil; reflexivity|]. apply lookup_In in L. apply in_map_iff. exists (col, name). auto.
  - destruct (lookup (substring 0 3 col) srml_variable_map) as [name|] eqn:L; [|reflexivity]. exfalso.
    assert (SP : forall k s, exists t, s = (substring 0 k s ++ t)%string). { induction k as [|k IH]; intros s; [exists s; destruct s; reflexivity|]. destruct s as [|c s]; [exists ""; reflexivity|]. destruct (IH s) as [t E]. exists t. cbn [substring append]. f_equal. exact E. }
    destruct (SP 3%nat col) as [t E]. apply (H (substring 0 3 col) t E). apply lookup_In in L. apply in_map_iff. exists (substring 0 3 col, name). auto.
Qed.
Print Assumptions C152_kept.
(** a last variable without a flag column raises KeyError *)
Theorem C152_no_flag : forall name values, srml_columns false [(name, values)] = Err KeyError.
Proof.
  intros name values. unfold srml_columns, srml_mask_all. cbn [map fst odds evens rename]. unfold rename. cbn [map fst snd lookup]. unfold srml_mask. cbn [lookup].
  destruct (String.eqb_spec (name ++ "_flag") name) as [E|_]; [|reflexivity]. exfalso. assert (L := f_equal String.length E). rewrite length_app in L. cbn in L. lia.
Qed.
Print Assumptions C152_no_flag.
Example C152_nonvacuous : let cs := [Column "1001" "0" [#1; #2] [#12; #99]; Column "9302" "0.1" [#3; #4] [#99; #11]] in distinct_columns (map translate cs) /\
  map fst (result_columns (map translate cs)) = ["ghi_1"; "ghi_1_flag"; "temp_air_2"; "temp_air_2_flag"]%string.
Proof.
  split; [|reflexivity]. split.
  - cbn. repeat constructor; cbn; intuition discriminate.
  - intros a b [<-|[<-|[]]] [<-|[<-|[]]]; cbn; discriminate.
Qed.

(** ** C153: downloading a range of files *)
Section C153.
Context {D M : Type}.
(** the found tables in order; the last site data; the missing names *)
Definition found (read : string -> fetched D M) (fs : list string) : list D := flat_map (fun f => match read f with Found d _ => [d] | _ => [] end) fs.
Definition missing (read : string -> fetched D M) (fs : list string) : list string := filter (fun f => match read f with NotFound => true | _ => false end) fs.
Definition metas (read : string -> fetched D M) (fs : list string) : list M := flat_map (fun f => match read f with Found _ m => [m] | _ => [] end) fs.
Definition last_meta (read : string -> fetched D M) (fs : list string) : option M := hd_error (rev (metas read fs)).
Definition no_other_error (read : string -> fetched D M) (fs : list string) : Prop := forall f e, In f fs -> read f <> Raises e.
Lemma hd_error_app {A} (l : list A) r : hd_error (l ++ r) = match hd_error l with Some x => Some x | None => hd_error r end.
Proof. destruct l; reflexivity. Qed.
Lemma fetch_ok (read : string -> fetched D M) : forall fs m0, no_other_error read fs ->
  fetch read m0 fs = Ok (found read fs, match last_meta read fs with Some m => Some m | None => m0 end, missing read fs).
Proof.
  induction fs as [|f fs IH]; intros m0 N; [reflexivity|]. assert (N' : no_other_error read fs) by (intros g e I; apply N; right; exact I).
  cbn [fetch]. unfold found, missing, last_meta, metas. cbn [flat_map filter]. destruct (read f) as [d m| |e] eqn:R.
  - rewrite (IH (Some m) N'). cbn [bind app]. fold (found read fs) (missing read fs) (metas read fs). cbn [rev]. rewrite hd_error_app. cbn [hd_error]. unfold last_meta. destruct (hd_error (rev (metas read fs))); reflexivity.
  - rewrite (IH m0 N'). cbn [bind app]. reflexivity.
  - exfalso. exact (N f e (or_introl eq_refl) R).
Qed.
Lemma fetch_err (read : string -> fetched D M) : forall pre f post m0 e, no_other_error read pre -> read f = Raises e -> fetch read m0 (pre ++ f :: post) = Err e.
Proof.
  induction pre as [|g pre IH]; intros f post m0 e N R; cbn [app fetch]; [rewrite R; reflexivity|]. assert (N' : no_other_error read pre) by (intros h e' I; apply N; right; exact I).
  destruct (read g) as [d m| |e'] eqn:G; [rewrite (IH f post (Some m) e N' R); reflexivity|rewrite (IH f post m0 e N' R); reflexivity|exfalso; exact (N g e' (or_introl eq_refl) G)].
Qed.
(** C153: get_surfrad and get_solrad ask for one file per day; the tables found are put together in the order of the days, with the site data of the last one and one warning for
    each missing file; ValueError if there is none at all; any other exception stops at once *)
Theorem C153_surfrad : forall (read : bool -> string -> fetched D M) station start end_ mv, let fs := map (day_file station) (day_range start end_) in no_other_error (read true) fs ->
  get_surfrad read station start end_ mv = match found (read true) fs with [] => Err ValueError | _ => Ok (found (read true) fs, last_meta (read true) fs, fs, missing (read true) fs) end.
Proof.
  intros read station start end_ mv fs N. unfold get_surfrad. fold fs. rewrite (fetch_ok _ fs None N). cbn [bind]. destruct (found (read true) fs); [reflexivity|]. destruct (last_meta (read true) fs); reflexivity.
Qed.
Theorem C153_solrad : forall (read : string -> fetched D M) station start end_, let fs := map (day_file station) (day_range start end_) in no_other_error read fs ->
  get_solrad read station start end_ = match found read fs with [] => Err ValueError | _ => Ok (found read fs, last_meta read fs, fs, missing read fs) end.
Proof.
  intros read station start end_ fs N. unfold get_solrad. fold fs. rewrite (fetch_ok _ fs None N). cbn [bind]. destruct (found read fs); [reflexivity|]. destruct (last_meta read fs); reflexivity.
Qed.
Theorem C153_srml : forall (read : bool -> string -> fetched D M) station filetype m0 m1 mv, let fs := map (month_file station filetype) (month_range m0 m1) in no_other_error (read mv) fs ->
  get_srml read station filetype m0 m1 mv = match found (read mv) fs with [] => Err ValueError | _ => Ok (found (read mv) fs, fs, missing (read mv) fs) end.
Proof.
  intros read station filetype m0 m1 mv fs N. unfold get_srml. fold fs. rewrite (fetch_ok _ fs None N). cbn [bind]. destruct (found (read mv) fs); reflexivity.
Qed.
Theorem C153_other_error : forall (read : bool -> string -> fetched D M) station start end_ mv pre f post e, map (day_file station) (day_range start end_) = pre ++ f :: post ->
  no_other_error (read true) pre -> read true f = Raises e -> get_surfrad read station start end_ mv = Err e /\ get_solrad (read true) station start end_ = Err e.
Proof. intros * E N R. unfold get_surfrad, get_solrad. rewrite E, (fetch_err _ pre f post None e N R). split; reflexivity. Qed.
(** get_surfrad's map_variables has no effect: the variables are always mapped *)
Theorem C153_map_variables_refuted : forall (read : bool -> string -> fetched D M) station start end_, get_surfrad read station start end_ false = get_surfrad read station start end_ true.
Proof. reflexivity. Qed.
End C153.
Print Assumptions C153_surfrad.
Print Assumptions C153_solrad.
Print Assumptions C153_srml.
Print Assumptions C153_other_error.
Print Assumptions C153_map_variables_refuted.

Lemma days_spec : forall n d, valid_date d -> Forall valid_date (days n d) /\ map ordinal (days n d) = map (fun k => ordinal d + Z.of_nat k) (seq 0 n).
Proof.
  induction n as [|n IH]; intros d V; [split; [constructor|reflexivity]|]. destruct (IH (next_day d) (next_day_valid d V)) as [I1 I2]. cbn [days]. split; [constructor; assumption|].
  cbn [map seq]. f_equal; [lia|]. rewrite I2, <- seq_shift, map_map. apply map_ext. intros k. rewrite next_day_ordinal by exact V. lia.
Qed.
(** the days asked for are those from the start's day to the end's day, each once, in order *)
Theorem C153_days : forall start end_, valid_date start ->
  Forall valid_date (day_range start end_) /\ map ordinal (day_range start end_) = map (fun k => ordinal start + Z.of_nat k) (seq 0 (Z.to_nat (end_ / 1440 - ordinal start + 1))) /\
  (forall x, In x (map ordinal (day_range start end_)) <-> ordinal start <= x /\ x * 1440 <= end_).
Proof.
  intros start end_ V. unfold day_range. destruct (days_spec (Z.to_nat (end_ / 1440 - ordinal start + 1)) start V) as [D1 D2]. split; [exact D1|]. split; [exact D2|].
  intros x. rewrite D2, in_map_iff. split.
  - intros (k & <- & I). apply in_seq in I. split; [lia|]. assert (B : ordinal start + Z.of_nat k <= end_ / 1440) by lia. pose proof (Z.mul_div_le end_ 1440). lia.
  - intros [A B]. assert (Q : x <= end_ / 1440) by (apply Z.div_le_lower_bound; lia). exists (Z.to_nat (x - ordinal start)). split; [lia|]. apply in_seq. lia.
Qed.
Print Assumptions C153_days.
Lemma sapp_inj (a b c d : string) : String.length a = String.length c -> (a ++ b)%string = (c ++ d)%string -> a = c /\ b = d.
Proof. revert c. induction a as [|x a IH]; intros [|y c] L E; try discriminate; [split; [reflexivity|exact E]|]. cbn in *. injection E as -> E. destruct (IH c (eq_add_S _ _ L) E) as [-> ->]. auto. Qed.
Lemma sapp_inj_l (a b d : string) : (a ++ b)%string = (a ++ d)%string -> b = d.
Proof. intros E. exact (proj2 (sapp_inj a b a d eq_refl E)). Qed.
Lemma text_length l : String.length (text l) = List.length l.
Proof. induction l as [|c l IH]; [reflexivity|]. cbn. f_equal. exact IH. Qed.
Lemma text_inj a : forall b, Forall (fun c => digit c = true) a -> Forall (fun c => digit c = true) b -> text a = text b -> a = b.
Proof.
  induction a as [|x a IH]; intros [|y b] A B E; try discriminate; [reflexivity|]. inversion A; subst. inversion B; subst. rewrite digit_spec in *. cbn [text fold_right] in E.
  assert (NX : (x =? dash) = false) by (apply Z.eqb_neq; unfold dash; lia). assert (NY : (y =? dash) = false) by (apply Z.eqb_neq; unfold dash; lia). rewrite NX, NY in E. injection E as E1 E2.
  fold (text a) (text b) in E2. rewrite (IH b) by assumption. f_equal. assert (EN := f_equal nat_of_ascii E1). rewrite !nat_ascii_embedding in EN by lia. lia.
Qed.
Lemma zpad_inj w x y : (0 < w)%nat -> 0 <= x < 10 ^ Z.of_nat w -> 0 <= y < 10 ^ Z.of_nat w -> text (zpad w x) = text (zpad w y) -> x = y.
Proof.
  intros W X Y E. apply text_inj in E; [|apply zpad_digits; lia|apply zpad_digits; lia]. rewrite !zpad_small in E by assumption. assert (V := f_equal val E). rewrite !val_digs, !Z.mod_small in V by lia. exact V.
Qed.
Lemma months_monotone y m m' : 1 <= m -> m < m' -> m' <= 12 -> days_before_month y m + days_in_month y m <= days_before_month y m'.
Proof.
  intros H1 H2 H3. assert (C1 : 1 <= m <= 12) by lia. assert (C2 : 1 <= m' <= 12) by lia.
  destruct (month_cases m C1) as [->|[->|[->|[->|[->|[->|[->|[->|[->|[->|[->| ->]]]]]]]]]]]; destruct (month_cases m' C2) as [->|[->|[->|[->|[->|[->|[->|[->|[->|[->|[->| ->]]]]]]]]]]];
    try (exfalso; lia); unfold days_before_month, days_in_month; destruct (is_leap y); vm_compute; discriminate.
Qed.
Lemma doy_inj d d' : valid_date d -> valid_date d' -> Calendar.yr d = Calendar.yr d' -> day_of_year d = day_of_year d' -> d = d'.
Proof.
  destruct d as [y m k], d' as [y' m' k']. unfold valid_date, day_of_year. cbn [Calendar.yr mo dy]. intros [M K] [M' K'] <- E.
  assert (m = m'). { destruct (Z.lt_trichotomy m m') as [L|[L|L]]; [|exact L|]; [pose proof (months_monotone y m m')|pose proof (months_monotone y m' m)]; lia. } subst m'. f_equal. lia.
Qed.
(** different days have different files *)
Theorem C153_files_distinct : forall station start end_, valid_date start -> Forall (fun d => 1000 <= Calendar.yr d <= 9999) (day_range start end_) -> NoDup (map (day_file station) (day_range start end_)).
Proof.
  assert (INJ : forall station d d', valid_date d -> valid_date d' -> 1000 <= Calendar.yr d <= 9999 -> 1000 <= Calendar.yr d' <= 9999 -> day_file station d = day_file station d' -> d = d').
  { intros station d d' V V' Y Y' E. unfold day_file in E. apply sapp_inj_l in E. apply sapp_inj_l in E. rewrite !str_year in E by lia.
    assert (LY : forall y, 1000 <= y <= 9999 -> String.length (text (zpad 4 y)) = 4%nat) by (intros y B; rewrite text_length, zpad_small by (rewrite ?pow4; lia); apply digs_length).
    apply sapp_inj in E; [|rewrite !LY by assumption; reflexivity]. destruct E as [E1 E]. apply zpad_inj in E1; [|lia|rewrite pow4; lia|rewrite pow4; lia].
    apply sapp_inj_l in E. apply sapp_inj_l in E. rewrite E1 in E. apply sapp_inj_l in E.
    pose proof (day_of_year_bounds d V) as B. pose proof (day_of_year_bounds d' V') as B'. unfold days_in_year in *. assert (BB : 1 <= day_of_year d <= 366 /\ 1 <= day_of_year d' <= 366) by (destruct (is_leap (Calendar.yr d)), (is_leap (Calendar.yr d')); lia).
    apply sapp_inj in E; [|rewrite !text_length, !zpad_small by (rewrite ?pow3; lia); rewrite !digs_length; reflexivity]. destruct E as [E2 _]. apply zpad_inj in E2; [|lia|rewrite pow3; lia|rewrite pow3; lia].
    apply doy_inj; assumption. }
  intros station start end_ V Y. destruct (C153_days start end_ V) as (DV & DO & _). set (l := day_range start end_) in *.
  assert (ND : NoDup (map ordinal l)). { rewrite DO. apply FinFun.Injective_map_NoDup; [intros a b E; lia|apply seq_NoDup]. }
  clear DO. induction l as [|d l IH]; [constructor|]. cbn [map] in *. inversion ND as [|? ? N1 N2]; subst. inversion DV; subst. inversion Y; subst. constructor; [|apply IH; assumption].
  intros I. apply in_map_iff in I. destruct I as (d' & E & I). apply N1. apply in_map_iff. exists d'. split; [|exact I]. f_equal. rewrite Forall_forall in *. apply (INJ station); auto.
Qed.
Print Assumptions C153_files_distinct.
(** SRML: one file per month from the month of start to that of end, in order; distinct within a century *)
Theorem C153_months : forall station filetype m0 m1, 0 <= m0 -> m1 - m0 < 1200 ->
  (forall m, In m (month_range m0 m1) <-> m0 <= m <= m1) /\ (forall i, (Z.of_nat i <= m1 - m0) -> nth_error (month_range m0 m1) i = Some (m0 + Z.of_nat i)) /\ NoDup (map (month_file station filetype) (month_range m0 m1)).
Proof.
  intros station filetype m0 m1 P C. assert (IN : forall m, In m (month_range m0 m1) <-> m0 <= m <= m1).
  { intros m. unfold month_range. rewrite in_map_iff. split; [intros (i & <- & I); apply in_seq in I; lia|]. intros H. exists (Z.to_nat (m - m0)). split; [lia|]. apply in_seq. lia. }
  split; [exact IN|]. split.
  - intros i H. unfold month_range. rewrite nth_error_map. rewrite (nth_error_nth' _ 0%nat) by (rewrite seq_length; lia). rewrite seq_nth by lia. reflexivity.
  - assert (ND : NoDup (month_range m0 m1)) by (unfold month_range; apply FinFun.Injective_map_NoDup; [intros a b E; lia|apply seq_NoDup]).
    assert (INJ : forall a b, m0 <= a <= m1 -> m0 <= b <= m1 -> month_file station filetype a = month_file station filetype b -> a = b).
    { intros a b A B E. unfold month_file in E. apply sapp_inj_l in E. apply sapp_inj_l in E. pose proof (Z.mod_pos_bound (a / 12) 100) as Ba. pose proof (Z.mod_pos_bound (b / 12) 100) as Bb.
      pose proof (Z.mod_pos_bound a 12). pose proof (Z.mod_pos_bound b 12).
      apply sapp_inj in E; [|rewrite !text_length, !zpad_small by (rewrite ?pow2; lia); rewrite !digs_length; reflexivity]. destruct E as [E1 E]. apply zpad_inj in E1; [|lia|rewrite pow2; lia|rewrite pow2; lia].
      apply sapp_inj in E; [|rewrite !text_length, !zpad_small by (rewrite ?pow2; lia); rewrite !digs_length; reflexivity]. destruct E as [E2 _]. apply zpad_inj in E2; [|lia|rewrite pow2; lia|rewrite pow2; lia].
      Z.to_euclidean_division_equations. lia. }
    assert (S : forall m, In m (month_range m0 m1) -> m0 <= m <= m1) by (intros m I; apply IN; exact I). clear IN. induction ND as [|x l N ND IH]; [constructor|]. cbn [map]. constructor.
    + intros I. apply in_map_iff in I. destruct I as (y & E & I). assert (y = x) by (apply INJ; [apply S; right; exact I|apply S; left; reflexivity|exact E]). subst. contradiction.
    + apply IH. intros m I. apply S. right. exact I.
Qed.
Print Assumptions C153_months.
Example C153_nonvacuous : map (day_file "tbl") (day_range (Date 2019 12 31) (instant (Date 2020 1 1) 5 0)) = ["tbl/2019/tbl19365.dat"; "tbl/2020/tbl20001.dat"]%string /\
  map (month_file "EU" "PO") (month_range (12 * 2019 + 11) (12 * 2020 + 0)) = ["EUPO1912.txt"; "EUPO2001.txt"]%string.
Proof. split; vm_compute; reflexivity. Qed.
