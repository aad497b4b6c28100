(** Properties C192 (get_reference_spectra) and C193 (get_example_spectral_response).  Model: Model/Spectra.v. *)
From Verif Require Import Base.Fl Base.FlFacts Base.Py Model.Spectrum Model.Spectra Spec.SpectralSpec Proofs.SpectralP Props.PSpectrum.
Open Scope R_scope.
Open Scope list_scope.

(** the linear interpolation between samples, the last sample itself, and nothing outside *)
Definition interpolated (samples : list (R * R)) (x v : R) : Prop :=
  (exists a b, adjacent a b samples /\ fst a <= x < fst b /\ v = snd a + (snd b - snd a) / (fst b - fst a) * (x - fst a)) \/
  (exists pre a, samples = pre ++ [a] /\ x = fst a /\ v = snd a) \/
  (((forall p, In p samples -> x < fst p) \/ (forall p, In p samples -> fst p < x)) /\ v = 0).
Lemma covered l x : ascending l ->
  (exists a b, adjacent a b l /\ fst a <= x < fst b) \/ (exists pre a, l = pre ++ [a] /\ x = fst a) \/ (forall p, In p l -> x < fst p) \/ (forall p, In p l -> fst p < x).
Proof.
  induction 1 as [|p|p q l PQ A IH].
  - right. right. left. intros p [].
  - destruct (Rlt_le_dec x (fst p)); [right; right; left; intros ? [<-|[]]; assumption|]. destruct (Req_dec x (fst p)); [right; left; exists [], p; split; [reflexivity|assumption]|].
    right. right. right. intros ? [<-|[]]. lra.
  - destruct (Rlt_le_dec x (fst p)) as [L|L].
    + right. right. left. intros r [<-|I]; [exact L|]. destruct I as [<-|I]; [lra|]. pose proof (asc_lt _ _ A r I). lra.
    + destruct (Rlt_le_dec x (fst q)) as [Q|Q]; [left; exists p, q; split; [exists [], l; reflexivity|split; assumption]|].
      destruct IH as [(a & b & (pre & post & E) & B)|[(pre & a & E & B)|[B|B]]].
      * left. exists a, b. split; [exists (p :: pre), post; rewrite E; reflexivity|exact B].
      * right. left. exists (p :: pre), a. split; [rewrite E; reflexivity|exact B].
      * specialize (B q (or_introl eq_refl)). lra.
      * right. right. right. intros r [<-|I]; [specialize (B q (or_introl eq_refl)); lra|exact (B r I)].
Qed.
Lemma interp_spec l x v : ascending l -> np_interp0 x l = v <-> interpolated l x v.
Proof.
  intros A. destruct (C73_response_interpolation l A) as (S1 & S2 & S3 & S4). split.
  - intros <-. destruct (covered l x A) as [(a & b & J & B)|[(pre & a & E & ->)|[B|B]]].
    + left. exists a, b. split; [exact J|]. split; [exact B|]. apply S1; assumption.
    + right. left. exists pre, a. split; [exact E|]. split; [reflexivity|]. apply (S2 pre). exact E.
    + right. right. split; [left; exact B|]. apply S3, B.
    + right. right. split; [right; exact B|]. apply S4, B.
  - intros [(a & b & J & B & ->)|[(pre & a & E & -> & ->)|[[B|B] ->]]]; [apply S1; assumption|apply (S2 pre); exact E|apply S3, B|apply S4, B].
Qed.

Lemma Ok_inj {A} (a b : A) : Ok a = Ok b -> a = b.
Proof. intros H. injection H as ->. reflexivity. Qed.
(** ** C192: the reference spectra *)
(** what the file has to be: every column has one value per wavelength, in order of wavelength *)
Definition proper (t : frame) : Prop := Forall (fun c => length (snd c) = length (windex t) /\ ascending (combine (windex t) (snd c))) (columns t).
(** the standard is known by exactly one name and read from one file; without wavelengths the whole table is returned, with them every column, under its name, is
    interpolated at exactly these wavelengths, in their order *)
Theorem C192_reference_spectra : forall read_csv wavelengths standard out, proper (read_csv "ASTMG173.csv"%string) ->
  get_reference_spectra read_csv wavelengths standard = Ok out <->
  standard = "ASTM G173-03"%string /\
  match wavelengths with
  | None => out = read_csv "ASTMG173.csv"%string
  | Some w => windex out = w /\
      Forall2 (fun c c' => fst c' = fst c /\ Forall2 (interpolated (combine (windex (read_csv "ASTMG173.csv"%string)) (snd c))) w (snd c')) (columns (read_csv "ASTMG173.csv"%string)) (columns out)
  end.
Proof.
  intros rc ws std out P. unfold get_reference_spectra, SPECTRA_FILES. cbn [lookup]. destruct (String.eqb_spec std "ASTM G173-03") as [->|N]; [|split; [discriminate|intros [E _]; contradiction]].
  set (t := rc "ASTMG173.csv"%string) in *. clearbody t. destruct ws as [w|]; [|split; [intros H; apply Ok_inj in H; split; [reflexivity|symmetry; exact H]|intros [_ ->]; reflexivity]].
  assert (K : forall (c : string * list R) v, length (snd c) = length (windex t) /\ ascending (combine (windex t) (snd c)) -> Forall2 (interpolated (combine (windex t) (snd c))) w v <-> interpolate_column (windex t) w (snd c) = v).
  { intros c v [_ A]. unfold interpolate_column. revert v. induction w as [|x w IH]; intros v; cbn [map]; [split; [intros H; inversion H; reflexivity|intros <-; constructor]|]. split.
    - intros H. inversion H as [|? v0 ? v' I F]; subst. apply (interp_spec _ _ _ A) in I. rewrite I. f_equal. apply IH, F.
    - intros <-. constructor; [apply (proj1 (interp_spec _ _ _ A)); reflexivity|apply IH; reflexivity]. }
  assert (Q : forall cs cs' : list (string * list R), Forall (fun c => length (snd c) = length (windex t) /\ ascending (combine (windex t) (snd c))) cs ->
    map (fun c => (fst c, interpolate_column (windex t) w (snd c))) cs = cs' <-> Forall2 (fun c c' => fst c' = fst c /\ Forall2 (interpolated (combine (windex t) (snd c))) w (snd c')) cs cs').
  { induction cs as [|c cs IH]; intros cs' F; cbn [map]; [split; [intros <-; constructor|intros H; inversion H; reflexivity]|]. inversion F as [|? ? F0 F1]; subst. split.
    - intros <-. constructor; [split; [reflexivity|]; apply (proj2 (K _ _ F0)); reflexivity|apply IH; [exact F1|reflexivity]].
    - intros H. inversion H as [|? [n v] ? cs'' [E G] H']; subst. cbn [fst snd] in *. rewrite E, (proj1 (K _ _ F0) G). f_equal. apply (proj2 (IH cs'' F1)), H'. }
  split.
  - intros H. apply Ok_inj in H. subst out. split; [reflexivity|]. cbn [windex columns]. split; [reflexivity|]. apply Q; [exact P|reflexivity].
  - intros (_ & E & F). destruct out as [wi cs]. cbn [windex columns] in *. subst wi. apply (proj2 (Q _ _ P)) in F. rewrite F. reflexivity.
Qed.
Print Assumptions C192_reference_spectra.
Theorem C192_reference_errors : forall read_csv wavelengths standard e, get_reference_spectra read_csv wavelengths standard = Err e <-> standard <> "ASTM G173-03"%string /\ e = ValueError.
Proof.
  intros rc ws std e. unfold get_reference_spectra, SPECTRA_FILES. cbn [lookup]. destruct (String.eqb_spec std "ASTM G173-03") as [E|N].
  - destruct ws; (split; [discriminate|intros [X _]; contradiction]).
  - split; [intros H; injection H as <-; auto|intros [_ ->]; reflexivity].
Qed.
Print Assumptions C192_reference_errors.
(** at the wavelengths of the table the interpolation is the table *)
Theorem C192_reference_own_wavelengths : forall read_csv, proper (read_csv "ASTMG173.csv"%string) ->
  get_reference_spectra read_csv (Some (windex (read_csv "ASTMG173.csv"%string))) "ASTM G173-03" = Ok (read_csv "ASTMG173.csv"%string).
Proof.
  intros rc P. apply (C192_reference_spectra rc _ _ _ P). split; [reflexivity|]. split; [reflexivity|]. set (t := rc _) in *. clearbody t. unfold proper in P.
  assert (G : forall xs ys, length ys = length xs -> ascending (combine xs ys) -> forall pre, ascending (pre ++ combine xs ys) -> Forall2 (interpolated (pre ++ combine xs ys)) xs ys).
  { induction xs as [|x xs IH]; intros [|y ys] L A pre AP; try discriminate L; [constructor|]. cbn [combine]. constructor.
    - destruct xs as [|x' xs], ys as [|y' ys]; try discriminate L.
      + right. left. exists pre, (x, y). repeat split.
      + left. exists (x, y), (x', y'). cbn [combine] in A. inversion A as [| |? ? ? LT A']; subst. cbn [fst snd] in *. split; [exists pre, (combine xs ys); reflexivity|]. split; [lra|]. field. lra.
    - replace (pre ++ (x, y) :: combine xs ys) with ((pre ++ [(x, y)]) ++ combine xs ys) by (rewrite <- app_assoc; reflexivity). apply IH.
      + injection L as L. exact L.
      + cbn [combine] in A. inversion A; [constructor|assumption].
      + rewrite <- app_assoc. exact AP. }
  induction P as [|c cs [L A] P IH]; constructor; [|exact IH]. split; [reflexivity|]. apply (G (windex t) (snd c) L A []). exact A.
Qed.
Print Assumptions C192_reference_own_wavelengths.
Definition small : frame := {| windex := [280; 281; 283]; columns := [("global", [1; 2; 4]); ("direct", [0; 0; 3])]%string |}.
Example C192_nonvacuous : proper small /\
  get_reference_spectra (fun _ => small) (Some [282; 300; 283; 100]) "ASTM G173-03" = Ok {| windex := [282; 300; 283; 100]; columns := [("global", [3; 0; 4; 0]); ("direct", [3 / 2; 0; 3; 0])]%string |}.
Proof.
  assert (P : proper small) by (repeat constructor; cbn [fst]; lra). split; [exact P|]. apply (C192_reference_spectra (fun _ => small) _ _ _ P). split; [reflexivity|]. split; [reflexivity|].
  cbn [columns small windex combine snd fst]. repeat (match goal with |- Forall2 _ _ _ => constructor | |- _ /\ Forall2 _ _ _ => split; [reflexivity|] end; cbn [combine snd]).
  - left. exists (281, 2), (283, 4). split; [exists [(280, 1)], []; reflexivity|]. cbn [fst snd]. split; [lra|field].
  - right. right. split; [right; intros p [<-|[<-|[<-|[]]]]; cbn [fst]; lra|reflexivity].
  - right. left. exists [(280, 1); (281, 2)], (283, 4). repeat split.
  - right. right. split; [left; intros p [<-|[<-|[<-|[]]]]; cbn [fst]; lra|reflexivity].
  - left. exists (281, 0), (283, 3). split; [exists [(280, 0)], []; reflexivity|]. cbn [fst snd]. split; [lra|field].
  - right. right. split; [right; intros p [<-|[<-|[<-|[]]]]; cbn [fst]; lra|reflexivity].
  - right. left. exists [(280, 0); (281, 0)], (283, 3). repeat split.
  - right. right. split; [left; intros p [<-|[<-|[<-|[]]]]; cbn [fst]; lra|reflexivity].
Qed.

(** ** C193: the example spectral response *)
(** the published points *)
Definition published_x : list R := [290; 350; 400; 500; 650; 800; 900; 950; 1000; 1050; 1100; 1150; 1190].
Definition published_y : list R := [0; 0.27; 0.37; 0.52; 0.71; 0.88; 0.97; 1; 0.93; 0.58; 0.21; 0.05; 0].
(** one value per wavelength, in order: the cubic spline through the published points from 290 to 1190 nm and 0 outside *)
Theorem C193_response : forall spline w out, get_example_spectral_response spline (Some w) = out <->
  Forall2 (fun x p => fst p = x /\ (290 <= x <= 1190 -> snd p = spline published_x published_y x) /\ (x < 290 \/ 1190 < x -> snd p = 0)) w out.
Proof.
  intros spline w out. unfold get_example_spectral_response.
  assert (E : map fst SR_DATA = published_x /\ map snd SR_DATA = published_y).
  { split; [reflexivity|]. unfold SR_DATA, published_y. cbn [map snd]. repeat (f_equal; try lra). }
  destruct E as [EX EY].
  assert (V : forall x v, (290 <= x <= 1190 -> v = spline published_x published_y x) /\ (x < 290 \/ 1190 < x -> v = 0) <-> example_value spline x = v).
  { intros x v. unfold example_value. rewrite EX, EY. cbn [published_x hd last]. destruct (Rlt_le_dec x 290) as [L|L]; [rewrite Rltb_t by exact L; cbn [orb]|rewrite (Rltb_f x 290) by exact L; cbn [orb]; destruct (Rlt_le_dec 1190 x) as [U|U]; [rewrite Rltb_t by exact U|rewrite Rltb_f by exact U]].
    - split; [intros [_ H]; symmetry; apply H; left; exact L|intros <-; split; [lra|reflexivity]].
    - split; [intros [_ H]; symmetry; apply H; right; exact U|intros <-; split; [lra|reflexivity]].
    - split; [intros [H _]; symmetry; apply H; lra|intros <-; split; [reflexivity|lra]]. }
  revert out. induction w as [|x w IH]; intros out; cbn [map]; [split; [intros <-; constructor|intros H; inversion H; reflexivity]|]. split.
  - intros <-. constructor; [cbn [fst snd]; split; [reflexivity|]; apply V; reflexivity|apply IH; reflexivity].
  - intros H. inversion H as [|? [a b] ? out' [E H0] H1]; subst. cbn [fst snd] in *. apply (proj1 (V _ b)) in H0. rewrite H0. f_equal. apply (proj2 (IH out')), H1.
Qed.
Print Assumptions C193_response.
(** a spline that meets its points gives the published values at the published wavelengths *)
Theorem C193_response_points : forall spline w i, (forall x y k, length x = length y -> (k < length x)%nat -> spline x y (nth k x 0) = nth k y 0) -> (i < 13)%nat -> In (nth i published_x 0) w ->
  In (nth i published_x 0, nth i published_y 0) (get_example_spectral_response spline (Some w)) /\
  (forall v, In (nth i published_x 0, v) (get_example_spectral_response spline (Some w)) -> v = nth i published_y 0).
Proof.
  intros spline w i C L IN. pose proof (proj1 (C193_response spline w _) eq_refl) as F. assert (B : 290 <= nth i published_x 0 <= 1190).
  { unfold published_x. do 13 (destruct i as [|i]; [cbn [nth]; lra|]). lia. }
  assert (E : spline published_x published_y (nth i published_x 0) = nth i published_y 0) by (apply C; [reflexivity|exact L]). set (x := nth i published_x 0) in *. clearbody x. set (y := nth i published_y 0) in *. clearbody y.
  induction F as [|x0 p w' out (P1 & P2 & P3) F IH] in IN |- *; [destruct IN|]. destruct p as [a v]. cbn [fst snd] in *. subst a. split.
  - destruct IN as [->|IN]; [left; rewrite (P2 B), E; reflexivity|right; apply IH, IN].
  - intros v' [H|H]; [apply pair_equal_spec in H; destruct H as [-> ->]; rewrite (P2 B); exact E|]. destruct (in_dec Req_EM_T x w') as [I|I]; [apply IH; assumption|].
    exfalso. apply I. clear -F H. induction F as [|? q ? ? (Q & _) ? IH]; [destruct H|]. destruct H as [->|H]; [left; symmetry; exact Q|right; apply IH, H].
Qed.
Print Assumptions C193_response_points.
(** without wavelengths: 280, 285, ..., 1200 nm *)
Theorem C193_default_wavelengths : exists w, length w = 185%nat /\ (forall i, (i < 185)%nat -> nth i w 0 = 280 + 5 * INR i) /\
  forall spline, get_example_spectral_response spline None = get_example_spectral_response spline (Some w).
Proof.
  exists default_wavelength. unfold default_wavelength. split; [rewrite map_length, seq_length; reflexivity|]. split; [|reflexivity].
  intros i L. rewrite (nth_indep _ 0 (280 + INR 0 * 5)) by (rewrite map_length, seq_length; exact L). rewrite (map_nth (fun k => 280 + INR k * 5)), seq_nth by exact L. cbn [Nat.add]. ring.
Qed.
Print Assumptions C193_default_wavelengths.
