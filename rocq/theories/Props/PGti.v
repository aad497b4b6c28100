(** Properties C185 (gti_dirint in front of the plane: angles of incidence below 90 degrees) and C186 (behind it).  Model: Model/GtiDirint.v. *)
From Coq Require Import ZArith Lia Reals Lra.
From Verif Require Import Base.Fl Base.FlFacts Base.Py Base.Calendar Spec.BestIterate Spec.Decomposition Spec.DirintBins Model.Tools Model.Atmosphere Model.IrradTables Model.Irradiance Model.IrradDecomp
  Model.Datetimes Model.GtiDirint Proofs.Gti Proofs.Atmos Proofs.Dirint Proofs.Disc Proofs.Decomp Proofs.ScalingP.
Open Scope R_scope.
Open Scope list_scope.

(** what the functions of the library give for a time: extraterrestrial irradiance, absolute airmass, and the irradiance in the plane modelled from
    (ghi, dni, dhi) *)
Definition extraterrestrial (r : gti_row) (e : fl) : Prop :=
  forall dp dn y, get_extra_radiation_at dp dn (GIndex [gr_time r]) #1370 "spencer" y = Ok [e].
Definition airmass_of (r : gti_row) (a : fl) : Prop :=
  exists relative, get_relative_airmass (gr_zenith r) "kasten1966" = Ok relative /\ a = get_absolute_airmass relative (gr_pressure r).
Definition in_plane (f : nat -> nat -> fl -> fl) (model model_perez : string) (r : gti_row) (o : fl * fl * fl) (v : fl) : Prop :=
  exists e a p, extraterrestrial r e /\ airmass_of r a /\
    get_total_irradiance f (gr_tilt r) (gr_surface_azimuth r) (gr_zenith r) (gr_azimuth r) (snd (fst o)) (fst (fst o)) (snd o) (Some e) (Some a) (gr_albedo r) None
      model model_perez false = Ok p /\ v = poa_global p.
Lemma extraterrestrial_I0 r : extraterrestrial r (gti_I0 r).
Proof. intros dp dn y. reflexivity. Qed.
Lemma airmass_of_row r : airmass_of r (gti_airmass r).
Proof. eexists. split; reflexivity. Qed.
Lemma I0_value r : exists x, gti_I0 r = #x /\ 0.963 * 1370 <= x <= 1.037 * 1370.
Proof.
  destruct (extra_radiation_spencer (fun _ => NaN) (fun _ => NaN) (IZR (pandas_to_doy (gr_time r))) 1370) as (v & E & _ & B).
  exists v. split; [|apply B; lra]. unfold gti_I0. unfold get_extra_radiation in E. cbn -[spencer_factor asce_factor] in E. injection E as E. exact E.
Qed.

Lemma nth_map_seq {A} (g : nat -> A) n i d : (i < n)%nat -> nth i (map g (seq 0 n)) d = g i.
Proof.
  intros H. rewrite (nth_indep _ d (g 0%nat)) by (rewrite map_length, seq_length; exact H). rewrite map_nth, seq_nth by exact H. reflexivity.
Qed.
Lemma nth_error_map_seq {A} (g : nat -> A) n i : (i < n)%nat -> nth_error (map g (seq 0 n)) i = Some (g i).
Proof. intros H. rewrite (nth_error_nth' _ (g i)) by (rewrite map_length, seq_length; exact H). rewrite nth_map_seq by exact H. reflexivity. Qed.

(** the transposition fails on names only *)
Lemma names_only f model mp r v r' v' :
  match gti_transposed f model mp r v, gti_transposed f model mp r' v' with Ok _, Ok _ => True | Err a, Err b => a = b | _, _ => False end.
Proof.
  unfold gti_transposed, get_total_irradiance, get_sky_diffuse, get_ground_diffuse, perez. destruct (getitem perez_coeffdict mp); cbn [bind andb];
  repeat (match goal with |- context [String.eqb ?a ?b] => destruct (String.eqb a b) end; cbn [bind rmap]; auto).
Qed.

Section Loop.
  Variable f : nat -> nat -> fl -> fl.
  Variables model mp : string.
  Variables dew use : bool.
  Variable rows : list gti_row.
  Let n := List.length rows.
  Let E := gti_evaluate f model mp dew use rows.
  Let poa := gti_measured rows.
  Let aoi90 := gti_lt_90 rows.
  Lemma eval_len p : List.length p = List.length poa -> List.length (fst (E p)) = List.length poa /\ List.length (snd (E p)) = List.length poa.
  Proof. intros _. unfold E, gti_evaluate, poa, gti_measured. cbn [fst snd]. rewrite !map_length, seq_length. split; reflexivity. Qed.
  Lemma lt_90_len : List.length aoi90 = List.length poa.
  Proof. unfold aoi90, poa, gti_lt_90, gti_measured. rewrite !map_length. reflexivity. Qed.
  Lemma exhausted_spec : forall rest m s, (1 <= m)%nat -> gti_inv E poa m s ->
    gti_exhausted f model mp dew use rows false (map gti_coeff (seq m rest)) s = false -> exists j, (m <= j < m + rest)%nat /\ all_close E poa aoi90 j.
  Proof.
    induction rest as [|k IH]; intros m s Hm Hs; cbn [seq map gti_exhausted]; [discriminate|].
    fold aoi90. destruct (gti_converged aoi90 s) eqn:C.
    - intros _. exists m. split; [lia|]. apply (gti_converged_iff E poa aoi90 lt_90_len m s Hm Hs), C.
    - intros H. destruct (IH (Datatypes.S m) (gti_iter E poa false (gti_coeff m) s)) as (j & J & K); [lia|apply (gti_inv_step E poa aoi90 eval_len lt_90_len); auto|exact H|].
      exists j. split; [lia|exact K].
  Qed.
  Lemma warns_spec k : existsb (fun b => b) aoi90 = true -> gti_warns f model mp dew use rows (Datatypes.S k) = false -> exists j, (1 <= j < Datatypes.S k)%nat /\ all_close E poa aoi90 j.
  Proof.
    intros X. unfold gti_warns, gti_coeffs. cbn [seq map gti_exhausted]. fold aoi90 poa E. rewrite (gti_init_not_converged poa aoi90 lt_90_len X).
    intros H. destruct (exhausted_spec k 1%nat _ (le_n 1) (gti_inv_first E poa aoi90 eval_len lt_90_len) H) as (j & J & C). exists j. split; [lia|exact C].
  Qed.
  Lemma exhausted_true : forall rest m s, (1 <= m)%nat -> gti_inv E poa m s ->
    gti_exhausted f model mp dew use rows false (map gti_coeff (seq m rest)) s = true -> forall j, (m <= j < m + rest)%nat -> ~ all_close E poa aoi90 j.
  Proof.
    induction rest as [|k IH]; intros m s Hm Hs; cbn [seq map gti_exhausted]; [intros _ j J; lia|].
    fold aoi90. destruct (gti_converged aoi90 s) eqn:C; [discriminate|]. intros H j J. destruct (Nat.eq_dec j m) as [->|N].
    - intros A. apply (gti_converged_iff E poa aoi90 lt_90_len m s Hm Hs) in A. congruence.
    - apply (IH (Datatypes.S m) (gti_iter E poa false (gti_coeff m) s)); [lia|apply (gti_inv_step E poa aoi90 eval_len lt_90_len); auto|exact H|lia].
  Qed.
  Lemma warns_iff k : existsb (fun b => b) aoi90 = true ->
    (gti_warns f model mp dew use rows (Datatypes.S k) = true <-> forall j, (1 <= j < Datatypes.S k)%nat -> ~ all_close E poa aoi90 j).
  Proof.
    intros X. split.
    - unfold gti_warns, gti_coeffs. cbn [seq map gti_exhausted]. fold aoi90 poa E. rewrite (gti_init_not_converged poa aoi90 lt_90_len X).
      intros H j J. apply (exhausted_true k 1%nat _ (le_n 1) (gti_inv_first E poa aoi90 eval_len lt_90_len) H). lia.
    - intros H. destruct (gti_warns f model mp dew use rows (Datatypes.S k)) eqn:W; [reflexivity|]. destruct (warns_spec k X W) as (j & J & C). destruct (H j J C).
  Qed.
  Definition mismatch (p : list fl) (i : nat) : fl := fabs (fsub (gti_modelled f model mp dew use rows p i) (nth i poa NaN)).
  Lemma mismatch_at i k : (i < n)%nat -> gti_mismatch E poa i k = mismatch (gti_inputs E poa k) i.
  Proof. intros H. unfold gti_mismatch, mismatch, E, gti_evaluate. cbn [snd]. rewrite nth_map_seq by exact H. reflexivity. Qed.
  Lemma value_at i k d : (i < n)%nat -> gti_value E poa k i d = gti_guess dew use rows (gti_inputs E poa k) i.
  Proof. intros H. unfold gti_value, E, gti_evaluate. cbn [fst]. rewrite nth_map_seq by exact H. reflexivity. Qed.
  Lemma modelled_value p i : (exists v, gti_transposed f model mp gti_row0 gti_nan = Ok v) ->
    gti_transposed f model mp (nth i rows gti_row0) (gti_guess dew use rows p i) = Ok (gti_modelled f model mp dew use rows p i).
  Proof.
    intros [v V]. pose proof (names_only f model mp gti_row0 gti_nan (nth i rows gti_row0) (gti_guess dew use rows p i)) as N. rewrite V in N. unfold gti_modelled.
    destruct (gti_transposed f model mp (nth i rows gti_row0) (gti_guess dew use rows p i)); [reflexivity|contradiction].
  Qed.
  Lemma first_spec max_it best : existsb (fun b => b) aoi90 = true -> gti_first f model mp dew use rows max_it = Ok best ->
    (exists v, gti_transposed f model mp gti_row0 gti_nan = Ok v) /\ List.length best = n /\
    exists K, (1 <= K <= max_it)%nat /\ ((gti_warns f model mp dew use rows max_it = false -> all_close E poa aoi90 K) /\
      (gti_warns f model mp dew use rows max_it = true <-> forall j, (1 <= j < max_it)%nat -> ~ all_close E poa aoi90 j) /\
      (forall j, (1 <= j < K)%nat -> ~ all_close E poa aoi90 j) /\ ((K < max_it)%nat -> all_close E poa aoi90 K)) /\
      forall i, (i < n)%nat -> exists k, best_iter (fun j => mismatch (gti_inputs E poa j) i) K k /\ nth i best gti_nan = gti_guess dew use rows (gti_inputs E poa k) i.
  Proof.
    intros X. unfold gti_first. destruct max_it as [|m]; [discriminate|]. fold n poa E.
    destruct (mapM _ (seq 0 n)) as [l|] eqn:M; [|discriminate]. cbn [bind]. intros F. fold aoi90 in F.
    assert (N0 : (0 < n)%nat).
    { unfold n. unfold aoi90, gti_lt_90 in X. destruct rows; [discriminate X|cbn; lia]. }
    split.
    { destruct (seq 0 n) eqn:S0; [destruct n; [lia|discriminate S0]|]. cbn [mapM] in M.
      destruct (gti_transposed f model mp (nth n0 rows gti_row0) _) as [w|] eqn:T; [|discriminate M].
      pose proof (names_only f model mp gti_row0 gti_nan (nth n0 rows gti_row0) (gti_guess dew use rows poa n0)) as N. rewrite T in N.
      destruct (gti_transposed f model mp gti_row0 gti_nan) eqn:T0; [eauto|contradiction]. }
    destruct (gti_dirint_spec E poa aoi90 eval_len lt_90_len (Datatypes.S m)) as (_ & _ & H).
    destruct (H X ltac:(lia)) as (K & b & D & KB & NC & CL & LB & P). unfold gti_dirint in D. rewrite X in D. rewrite F in D. injection D as ->.
    assert (LN : List.length poa = n) by (unfold poa, gti_measured; apply map_length).
    split; [congruence|]. exists K. split; [exact KB|]. split.
    - split; [|split; [apply warns_iff; exact X|split; [exact NC|exact CL]]]. intros W. destruct (warns_spec m X W) as (j & J & C). destruct (Nat.lt_ge_cases K (Datatypes.S m)) as [L|L]; [apply CL; exact L|].
      exfalso. apply (NC j); [lia|exact C].
    - intros i I0. destruct (P i ltac:(lia)) as (k & B & V). exists k. split; [|rewrite (V gti_nan), value_at by exact I0; reflexivity].
      destruct B as [B1 B2]. split; [exact B1|]. destruct B2 as [(B2 & B3 & B4)|[B2 B3]].
      + left. rewrite <- !mismatch_at by exact I0. split; [exact B2|]. split; intros j J; rewrite <- mismatch_at by exact I0; auto.
      + right. split; [exact B2|]. intros j J. rewrite <- mismatch_at by exact I0. auto.
  Qed.
  Lemma close_best i K k : (i < n)%nat -> nth i aoi90 false = true -> best_iter (fun j => mismatch (gti_inputs E poa j) i) K k -> all_close E poa aoi90 K ->
    fleb (mismatch (gti_inputs E poa k) i) #1 = true.
  Proof.
    intros I0 A (KK & B) C. assert (LN : List.length poa = n) by (unfold poa, gti_measured; apply map_length).
    destruct (C i ltac:(lia) A) as (j & J & L). rewrite mismatch_at in L by exact I0. destruct B as [(B1 & B2 & _)|[-> B2]].
    - specialize (B2 j J). destruct (mismatch (gti_inputs E poa j) i), (mismatch (gti_inputs E poa k) i); cbn in *; try discriminate; auto.
      apply Rleb_true. apply Rleb_true in L. apply Rltb_false in B2. lra.
    - specialize (B2 j J). unfold mismatch in *. destruct (fsub (gti_modelled f model mp dew use rows (gti_inputs E poa j) i) _); cbn in *; try discriminate.
      apply Rleb_true in L. apply Rltb_false in B2. lra.
  Qed.
End Loop.

(** ** C185 *)
(** the table of coefficients has no negative entry *)
Definition no_negative (c : R) : Prop := 0 <= c.
Lemma table_nonneg : Forall (Forall (Forall (Forall no_negative))) dirint_table.
Proof. unfold dirint_table. repeat (constructor || (unfold no_negative; lra)). Qed.
Lemma fmax_0 x : atleast #0 x -> fmax x #0 = x.
Proof.
  intros [->|H]; [reflexivity|]. destruct x as [a| | |]; try reflexivity; [|discriminate H].
  apply fle_fin in H. rewrite fmax_fin, Rmax_left by lra. reflexivity.
Qed.
Lemma atleast_mul x y : atleast #0 x -> atleast #0 y -> atleast #0 (fmul x y).
Proof.
  intros [->|H] [->|K]; try (left; reflexivity); [left; apply fmul_nan_r|].
  destruct x as [a| | |]; try discriminate H; destruct y as [b| | |]; try discriminate K; try (apply fle_fin in H); try (apply fle_fin in K).
  - rewrite fmul_fin. apply atleast_fin. apply Rmult_le_pos; assumption.
  - cbn. unfold sinf, Rpos, Rneg. destruct (Rltb_spec 0 a); [right; reflexivity|]. destruct (Rltb_spec a 0); [lra|left; reflexivity].
  - cbn. unfold sinf, Rpos, Rneg. destruct (Rltb_spec 0 b); [right; reflexivity|]. destruct (Rltb_spec b 0); [lra|left; reflexivity].
  - right. reflexivity.
Qed.
Lemma coefficient_nonneg dew r k d : atleast #0 (gti_coefficient dew r k d).
Proof.
  unfold gti_coefficient. set (w := temp_dew_dirint _). destruct (dirint_coeff_total k (gr_zenith r) w d) as (v & -> & N & T).
  destruct (kt_prime_bin k) as [|i]; [left; apply N; auto|]. destruct (zenith_bin (gr_zenith r)) as [|j]; [left; apply N; auto|].
  destruct (w_bin w) as [|l]; [left; apply N; auto|]. destruct (delta_kt_prime_bin d) as [|q]; [left; apply N; auto|].
  destruct (T i j q l eq_refl eq_refl eq_refl eq_refl) as (c & C & ->). apply atleast_fin. unfold table_at in C. pose proof table_nonneg as H.
  destruct (nth_error dirint_table i) as [t1|] eqn:E1; [|discriminate]. rewrite Forall_forall in H. specialize (H t1 (nth_error_In _ _ E1)).
  destruct (nth_error t1 j) as [t2|] eqn:E2; [|discriminate]. rewrite Forall_forall in H. specialize (H t2 (nth_error_In _ _ E2)).
  destruct (nth_error t2 q) as [t3|] eqn:E3; [|discriminate]. rewrite Forall_forall in H. specialize (H t3 (nth_error_In _ _ E3)).
  rewrite Forall_forall in H. exact (H c (nth_error_In _ _ C)).
Qed.
Lemma disc_nonneg r k : atleast #0 (gti_disc r k).
Proof. apply fmax_atleast. Qed.
Lemma I0h_nonneg r : atleast #0 (gti_I0h r).
Proof.
  unfold gti_I0h. destruct (I0_value r) as (x & -> & B). destruct (cosd (gr_zenith r)) as [z| | |] eqn:C;
    [|unfold cosd in C; destruct (fradians (gr_zenith r)); discriminate C..|left; reflexivity].
  rewrite fmax_fin, fmul_fin. apply atleast_fin. pose proof (Rmax_l 0.065 z). apply Rmult_le_pos; lra.
Qed.
Lemma kt_nonneg rows p i : atleast #0 (gti_kt rows p i).
Proof.
  destruct (clearness_index_within (nth i p NaN) (gr_aoi (nth i rows gti_row0)) (gti_I0 (nth i rows gti_row0)) #0.065 2 ltac:(lra)) as [H|[H _]]; [left|right]; exact H.
Qed.
(** the guesses: no clipping but that of dhi takes effect *)
Lemma guess_values dew use rows p i :
  let r := nth i rows gti_row0 in let v := gti_guess dew use rows p i in
  gv_ghi v = fmul (gti_kt rows p i) (gti_I0h r) /\
  gv_dni v = fmul (gti_disc r (gti_kt rows p i)) (gti_coefficient dew r (gti_kt_prime rows p i)
     (nth i (delta_kt_prime_dirint (map (gti_kt_prime rows p) (seq 0 (List.length rows))) use) NaN)) /\
  gv_dhi v = fmax (fsub (gv_ghi v) (fmul (gv_dni v) (cosd (gr_zenith r)))) #0 /\ atleast #0 (gv_ghi v) /\ atleast #0 (gv_dni v) /\ gv_kt_prime v = gti_kt_prime rows p i.
Proof.
  intros r v. unfold v, gti_guess. cbn [gv_ghi gv_dni gv_dhi gv_kt_prime]. fold r. set (c := gti_coefficient _ _ _ _).
  assert (A : atleast #0 (fmul (gti_kt rows p i) (gti_I0h r))) by (apply atleast_mul; [apply kt_nonneg|apply I0h_nonneg]).
  assert (B : atleast #0 (fmul (gti_disc r (gti_kt rows p i)) c)) by (apply atleast_mul; [apply disc_nonneg|apply coefficient_nonneg]).
  rewrite (fmax_0 _ A), (fmax_0 _ B). auto 8.
Qed.
Section Out.
  Variable f : nat -> nat -> fl -> fl.
  Variables model mp : string.
  Variables dew use calc : bool.
  Variable rows : list gti_row.
  Variable max_it : nat.
  Lemma out_spec out : gti_dirint_series f model mp dew use rows calc max_it = Ok out ->
    exists best, gti_first f model mp dew use rows max_it = Ok best /\ existsb (fun b => b) (gti_lt_90 rows) = true /\
    List.length out = List.length rows /\ forall i r o, nth_error rows i = Some r -> nth_error out i = Some o ->
      nth i rows gti_row0 = r /\ (i < List.length rows)%nat /\
      o = (let v := nth i best gti_nan in if fltb (gr_aoi r) #90 then (gv_ghi v, gv_dni v, gv_dhi v)
           else if calc then gti_gte_90_vals dew rows best i else (NaN, NaN, NaN)).
  Proof.
    unfold gti_dirint_series. destruct (existsb _ _); [|discriminate]. destruct (gti_first _ _ _ _ _ _ _) as [best|]; [|discriminate]. cbn [bind]. intros H. injection H as <-.
    exists best. split; [reflexivity|]. split; [reflexivity|]. split; [rewrite map_length, seq_length; reflexivity|]. intros i r o R0 O0.
    assert (L : (i < List.length rows)%nat) by (apply nth_error_Some; congruence). rewrite nth_error_map_seq in O0 by exact L. injection O0 as <-.
    pose proof (nth_error_nth _ _ gti_row0 R0) as N. split; [exact N|]. split; [exact L|]. unfold gti_lt_90.
    rewrite (nth_indep _ false (fltb (gr_aoi gti_row0) #90)) by (rewrite map_length; exact L). rewrite (map_nth (fun r => fltb (gr_aoi r) #90)), N. reflexivity.
  Qed.
End Out.
(** ValueError without a time in front of the plane, UnboundLocalError without iterations, and otherwise what the transposition raises for the names
    of its models, whatever the values *)
Theorem C185_errors : forall f model mp dew use rows calc max_it e,
  gti_dirint_series f model mp dew use rows calc max_it = Err e <->
  ((forall r, In r rows -> fltb (gr_aoi r) #90 = false) /\ e = ValueError) \/
  ((exists r, In r rows /\ fltb (gr_aoi r) #90 = true) /\
    ((max_it = 0%nat /\ e = UnboundLocalError) \/
     ((1 <= max_it)%nat /\ forall tilt azimuth zenith solar_azimuth dni ghi dhi extra airmass albedo,
        get_total_irradiance f tilt azimuth zenith solar_azimuth dni ghi dhi (Some extra) (Some airmass) albedo None model mp false = Err e))).
Proof.
  intros f model mp dew use rows calc max_it e. unfold gti_dirint_series.
  assert (X : existsb (fun b => b) (gti_lt_90 rows) = true <-> exists r, In r rows /\ fltb (gr_aoi r) #90 = true).
  { rewrite existsb_exists. unfold gti_lt_90. split; [intros (b & I0 & ->); apply in_map_iff in I0; destruct I0 as (r & R0 & I0); eauto|].
    intros (r & I0 & R0). exists true. split; [|reflexivity]. apply in_map_iff. eauto. }
  assert (T : forall r v, gti_transposed f model mp r v = Err e <-> forall tilt azimuth zenith solar_azimuth dni ghi dhi extra airmass albedo,
        get_total_irradiance f tilt azimuth zenith solar_azimuth dni ghi dhi (Some extra) (Some airmass) albedo None model mp false = Err e).
  { intros r v. split.
    - intros H tilt az z saz dni ghi dhi extra am alb. unfold gti_transposed, get_total_irradiance, get_sky_diffuse, get_ground_diffuse, perez in *. cbn [bind andb] in *.
      destruct (getitem perez_coeffdict mp); cbn [bind] in *;
      repeat (match goal with |- context [String.eqb ?a ?b] => destruct (String.eqb a b) end; cbn [bind rmap] in *; auto; try discriminate H); injection H as <-; reflexivity.
    - intros H. unfold gti_transposed. rewrite H. reflexivity. }
  destruct (existsb _ _) eqn:B.
  - destruct (proj1 X eq_refl) as (r0 & I0 & R0). transitivity (gti_first f model mp dew use rows max_it = Err e).
    { destruct (gti_first _ _ _ _ _ _ _); cbn [bind]; split; intros H; try discriminate H; congruence. }
    unfold gti_first. destruct max_it as [|m].
    + split; [intros H; injection H as <-; right; split; [eauto|left; auto]|]. intros [[H _]|[_ [[_ ->]|[H _]]]]; [rewrite (H r0 I0) in R0; discriminate R0|reflexivity|lia].
    + destruct (nth_error rows 0) as [r1|] eqn:R1; [|destruct rows; [destruct I0|discriminate R1]].
      assert (L : exists k, List.length rows = Datatypes.S k) by (destruct rows; [discriminate R1|eexists; reflexivity]). destruct L as [k L].
      rewrite L. cbn [seq mapM]. set (v0 := gti_guess _ _ _ _ 0). destruct (gti_transposed f model mp (nth 0 rows gti_row0) v0) as [w|e'] eqn:T0.
      * assert (M : exists l, mapM (fun i => gti_transposed f model mp (nth i rows gti_row0) (gti_guess dew use rows (gti_measured rows) i)) (seq 1 k) = Ok l).
        { exists (map (gti_modelled f model mp dew use rows (gti_measured rows)) (seq 1 k)). apply mapM_ok. intros i _. apply modelled_value.
          pose proof (names_only f model mp (nth 0 rows gti_row0) v0 gti_row0 gti_nan) as N. rewrite T0 in N. destruct (gti_transposed f model mp gti_row0 gti_nan); [eauto|contradiction]. }
        destruct M as [l ->]. cbn [bind].
        destruct (gti_dirint_spec _ (gti_measured rows) (gti_lt_90 rows) (eval_len f model mp dew use rows) (lt_90_len rows) (Datatypes.S m)) as (_ & _ & H).
        destruct (H B ltac:(lia)) as (K & b & D & _). unfold gti_dirint in D. rewrite B in D. rewrite D. split; [discriminate|].
        intros [[Q _]|[_ [[Q _]|[_ Q]]]]; [rewrite (Q r0 I0) in R0; discriminate R0|discriminate Q|]. apply (T (nth 0 rows gti_row0) v0) in Q. congruence.
      * cbn [bind]. split.
        -- intros H. injection H as ->. right. split; [eauto|]. right. split; [lia|]. apply (T (nth 0 rows gti_row0) v0). exact T0.
        -- intros [[Q _]|[_ [[Q _]|[_ Q]]]]; [rewrite (Q r0 I0) in R0; discriminate R0|discriminate Q|]. apply (T (nth 0 rows gti_row0) v0) in Q. congruence.
  - split.
    + intros H. injection H as <-. left. split; [|reflexivity]. intros r I0. destruct (fltb (gr_aoi r) #90) eqn:Q; [|reflexivity].
      assert (false = true) by (apply X; eauto). discriminate.
    + intros [[_ ->]|[H _]]; [reflexivity|]. apply X in H. discriminate H.
Qed.
Print Assumptions C185_errors.

(** the guess (ghi, dni, dhi), with its zenith-independent clearness index, that Marion's equations give for the adjusted irradiance of a time, when the
    stability index is [d]: DISC beam times the DIRINT coefficient of Spec/DirintBins.v, missing for clearness indices above 1 *)
Definition marion (dew : bool) (r : gti_row) (adjusted kt_prime d : fl) (o : fl * fl * fl) : Prop :=
  forall a z e m q, gr_aoi r = #a -> gr_zenith r = #z -> extraterrestrial r #e -> airmass_of r #m -> 0 < m -> adjusted = #q ->
  let kt := Rmin (Rmax (q / (e * Rmax (cosD a) 0.065)) 0) 2 in
  let kp := Rmin (Rmax (kt / (1.031 * exp (-1.4 / (0.9 + 9.4 / m)) + 0.1)) 0) 2 in
  let ghi := kt * (e * Rmax 0.065 (cosD z)) in
  let beam c := Rmax (disc_transmittance kt (Rmin m 12) * e) 0 * c in
  kt_prime = #kp /\
  (1 < kp -> o = (#ghi, NaN, NaN)) /\
  (forall t stability i j k l, d = #stability -> (dew = true -> gr_dew r = #t) -> kt_bin_spec kp i -> zenith_bin_spec z j -> dkt_bin_spec stability k ->
     w_bin_spec (if dew then exp (0.07 * t - 0.075) else -1) l ->
     exists c, table_at i j k l = Some c /\ o = (#ghi, #(beam c), #(Rmax (ghi - beam c * cosD z) 0))).
Lemma extraterrestrial_value r e : extraterrestrial r e -> gti_I0 r = e.
Proof. intros H. specialize (H (fun _ => NaN) (fun _ => NaN) 2014%Z). pose proof (extraterrestrial_I0 r (fun _ => NaN) (fun _ => NaN) 2014%Z). congruence. Qed.
Lemma airmass_value r a : airmass_of r a -> gti_airmass r = a.
Proof. intros (x & X & ->). unfold get_relative_airmass in X. cbn -[am_kasten1966 airmass_z] in X. injection X as <-. reflexivity. Qed.
Lemma coefficient_bins dew r kp z d t i j k l : gr_zenith r = #z -> (dew = true -> gr_dew r = #t) -> kt_bin_spec kp i -> zenith_bin_spec z j -> dkt_bin_spec d k ->
  w_bin_spec (if dew then exp (0.07 * t - 0.075) else -1) l -> exists c, table_at i j k l = Some c /\ gti_coefficient dew r #kp #d = #c.
Proof.
  intros Z0 D B1 B2 B3 B4. unfold gti_coefficient. rewrite Z0.
  assert (W : temp_dew_dirint (if dew then Some (gr_dew r) else None) = #(if dew then exp (0.07 * t - 0.075) else -1)).
  { destruct dew; [rewrite (D eq_refl)|]; cbn [temp_dew_dirint]; [fin; reflexivity|reflexivity]. }
  rewrite W. destruct (dirint_coeff_fin kp z (if dew then exp (0.07 * t - 0.075) else -1) d) as (v & -> & _ & H). destruct (H i j k l B1 B2 B3 B4) as (c & C & ->). eauto.
Qed.
Lemma coefficient_above_one dew r kp d : 1 < kp -> gti_coefficient dew r #kp d = NaN.
Proof.
  intros H. unfold gti_coefficient. destruct (dirint_coeff_total #kp (gr_zenith r) (temp_dew_dirint (if dew then Some (gr_dew r) else None)) d) as (v & -> & N & _).
  apply N. left. apply kt_bin_zero. lra.
Qed.
Lemma disc_fin r k e m : gti_I0 r = #e -> gti_airmass r = #m -> gti_disc r #k = #(Rmax (disc_transmittance k (Rmin m 12) * e) 0).
Proof. intros E M. unfold gti_disc. rewrite E, M, disc_kn_fin. cbn [fst]. rewrite fmul_fin, fmax_fin. reflexivity. Qed.
Lemma guess_marion dew use rows p i : let v := gti_guess dew use rows p i in
  marion dew (nth i rows gti_row0) (nth i p NaN) (gti_kt_prime rows p i) (nth i (delta_kt_prime_dirint (map (gti_kt_prime rows p) (seq 0 (List.length rows))) use) NaN)
    (gv_ghi v, gv_dni v, gv_dhi v).
Proof.
  intros v a z e m q A Z0 E M M0 Q. set (r := nth i rows gti_row0) in *. apply extraterrestrial_value in E. apply airmass_value in M. cbv zeta.
  destruct (guess_values dew use rows p i) as (G1 & G2 & G3 & _). fold r in G1, G2, G3. fold v in G1, G2, G3. rewrite G3, G2, G1. clearbody v. clear G1 G2 G3.
  assert (EP : 0 < e) by (destruct (I0_value r) as (x & X & B); rewrite E in X; injection X as ->; lra).
  assert (KT : gti_kt rows p i = #(Rmin (Rmax (q / (e * Rmax (cosD a) 0.065)) 0) 2)).
  { unfold gti_kt. fold r. rewrite E, A, Q. apply clearness_index_fin. assert (0 < Rmax (cosD a) 0.065) by (pose proof (Rmax_r (cosD a) 0.065); lra).
    assert (0 < e * Rmax (cosD a) 0.065) by (apply Rmult_lt_0_compat; assumption). lra. }
  set (kt := Rmin (Rmax (q / (e * Rmax (cosD a) 0.065)) 0) 2) in *. clearbody kt.
  assert (KP : gti_kt_prime rows p i = #(Rmin (Rmax (kt / (1.031 * exp (-1.4 / (0.9 + 9.4 / m)) + 0.1)) 0) 2)).
  { unfold gti_kt_prime. fold r. rewrite KT, M. apply clearness_index_zi_fin. exact M0. }
  assert (H0 : gti_I0h r = #(e * Rmax 0.065 (cosD z))) by (unfold gti_I0h; rewrite E, Z0, cosd_fin, fmax_fin, fmul_fin; reflexivity).
  set (dl := nth i _ NaN). clearbody dl. rewrite KP. set (kp := Rmin (Rmax (kt / _) 0) 2). clearbody kp. rewrite KT, H0, (disc_fin r kt e m E M). rewrite !fmul_fin.
  split; [reflexivity|]. split.
  - intros H. rewrite (coefficient_above_one _ _ _ _ H), fmul_nan_r, fmul_nan_l. reflexivity.
  - intros t stability ib jb kb lb -> D B1 B2 B3 B4. destruct (coefficient_bins dew r kp z stability t ib jb kb lb Z0 D B1 B2 B3 B4) as (c & C & CE). exists c. split; [exact C|].
    rewrite CE, Z0, cosd_fin, !fmul_fin, fsub_fin, fmax_fin. reflexivity.
Qed.
(** the trace of the loop: the adjusted plane-of-array irradiance of the times, the guesses made from it, the irradiance modelled from the guesses, and
    for each time the guess of smallest mismatch among the [K] made, the earliest such *)
Record trace (f : nat -> nat -> fl -> fl) (model mp : string) (dew use : bool) (rows : list gti_row) (K : nat) (adjusted modelled kt_prime : nat -> nat -> fl)
    (guess : nat -> nat -> fl * fl * fl) (chosen : nat -> nat) : Prop := {
  tr_start : forall i r, nth_error rows i = Some r -> adjusted 0%nat i = gr_poa r;
  tr_guess : forall k i r, nth_error rows i = Some r ->
    marion dew r (adjusted k i) (kt_prime k i) (nth i (delta_kt_prime_dirint (map (kt_prime k) (seq 0 (List.length rows))) use) NaN) (guess k i);
  tr_modelled : forall k i r, nth_error rows i = Some r -> in_plane f model mp r (guess k i) (modelled k i);
  tr_adjust : forall k i r, nth_error rows i = Some r ->
    adjusted (S k) i = fmax #1 (fsub (adjusted k i) (fmul #(if Nat.ltb k 3 then 1 else if Nat.ltb k 10 then 0.5 else if Nat.ltb k 20 then 0.25 else 0.125)
       (fsub (modelled k i) (gr_poa r))));
  tr_chosen : forall i r, nth_error rows i = Some r -> best_iter (fun j => fabs (fsub (modelled j i) (gr_poa r))) K (chosen i) }.
Lemma fin_choice (n : nat) (P : nat -> nat -> Prop) : (forall i, (i < n)%nat -> exists k, P i k) -> exists c : nat -> nat, forall i, (i < n)%nat -> P i (c i).
Proof.
  induction n as [|n IH]; intros H; [exists (fun _ => 0%nat); intros; lia|]. destruct IH as [c C]; [intros i I0; apply H; lia|]. destruct (H n ltac:(lia)) as [k Q].
  exists (fun i => if Nat.eqb i n then k else c i). intros i I0. destruct (Nat.eqb_spec i n) as [->|]; [exact Q|apply C; lia].
Qed.
Lemma kt_prime_finite rows p i : gti_kt_prime rows p i = NaN \/ exists v, gti_kt_prime rows p i = #v.
Proof.
  unfold gti_kt_prime, clearness_index_zenith_independent. set (x := fdiv _ _). destruct x as [a| | |]; cbn; unfold fmin, fmax; cbn; eauto.
Qed.
(** among the first [k] guesses every time in front of the plane has one with which the irradiance in the plane is modelled within 1 W/m^2 *)
Definition within_1 (rows : list gti_row) (modelled : nat -> nat -> fl) (k : nat) : Prop :=
  forall i r, nth_error rows i = Some r -> fltb (gr_aoi r) #90 = true -> exists j, (j < k)%nat /\ fle (fabs (fsub (modelled j i) (gr_poa r))) #1.
Lemma trace_exists : forall f model mp dew use rows calc max_it out, gti_dirint_series f model mp dew use rows calc max_it = Ok out ->
  exists best K adjusted modelled kt_prime guess chosen, (1 <= K <= max_it)%nat /\ trace f model mp dew use rows K adjusted modelled kt_prime guess chosen /\
   (forall i r, nth_error rows i = Some r -> guess (chosen i) i = (let v := nth i best gti_nan in (gv_ghi v, gv_dni v, gv_dhi v)) /\ gv_kt_prime (nth i best gti_nan) = kt_prime (chosen i) i /\
      (kt_prime (chosen i) i = NaN \/ exists v, kt_prime (chosen i) i = #v)) /\
   ((forall i r, nth_error rows i = Some r -> fltb (gr_aoi r) #90 = true -> gti_warns f model mp dew use rows max_it = false -> fle (fabs (fsub (modelled (chosen i) i) (gr_poa r))) #1) /\
    (gti_warns f model mp dew use rows max_it = true <-> forall k, (1 <= k < max_it)%nat -> ~ within_1 rows modelled k) /\
    (forall k, (1 <= k < K)%nat -> ~ within_1 rows modelled k) /\ ((K < max_it)%nat -> within_1 rows modelled K)) /\
   List.length out = List.length rows /\ forall i r o, nth_error rows i = Some r -> nth_error out i = Some o ->
      nth i rows gti_row0 = r /\ (i < List.length rows)%nat /\
      o = (let v := nth i best gti_nan in if fltb (gr_aoi r) #90 then (gv_ghi v, gv_dni v, gv_dhi v)
           else if calc then gti_gte_90_vals dew rows best i else (NaN, NaN, NaN)).
Proof.
  intros f model mp dew use rows calc max_it out H. destruct (out_spec _ _ _ _ _ _ _ _ _ H) as (best & F & X & L & P).
  destruct (first_spec _ _ _ _ _ _ _ _ X F) as (V & LB & K & KB & W & Q). apply fin_choice in Q. destruct Q as [chosen Q].
  set (E := gti_evaluate f model mp dew use rows) in *. set (poa := gti_measured rows) in *.
  assert (LP : List.length poa = List.length rows) by (unfold poa, gti_measured; apply map_length).
  assert (AT : forall i r, nth_error rows i = Some r -> nth i rows gti_row0 = r /\ (i < List.length rows)%nat /\ nth i poa NaN = gr_poa r).
  { intros i r R0. assert (N : nth i rows gti_row0 = r) by (apply nth_error_nth; exact R0). split; [exact N|]. split; [apply nth_error_Some; congruence|].
    unfold poa, gti_measured. change NaN with (gr_poa gti_row0). rewrite map_nth, N. reflexivity. }
  exists best, K, (fun k i => nth i (gti_inputs E poa k) NaN), (fun k i => gti_modelled f model mp dew use rows (gti_inputs E poa k) i),
    (fun k i => gti_kt_prime rows (gti_inputs E poa k) i), (fun k i => let v := gti_guess dew use rows (gti_inputs E poa k) i in (gv_ghi v, gv_dni v, gv_dhi v)), chosen.
  split; [exact KB|]. split; [|split; [|split; [|split; [exact L|exact P]]]].
  - constructor.
    + intros i r R0. apply AT. exact R0.
    + intros k i r R0. destruct (AT i r R0) as (<- & _). apply guess_marion.
    + intros k i r R0. destruct (AT i r R0) as (N & _). exists (gti_I0 r), (gti_airmass r). pose proof (modelled_value f model mp dew use rows (gti_inputs E poa k) i V) as M. rewrite N in M. unfold gti_transposed in M.
      set (t := get_total_irradiance _ _ _ _ _ _ _ _ _ _ _ _ _ _ _) in M. cbn [fst snd]. destruct t as [q|] eqn:T; [|discriminate M]. exists q.
      split; [apply extraterrestrial_I0|]. split; [apply airmass_of_row|]. split; [exact T|]. unfold rmap in M; cbn [bind] in M. injection M as M. symmetry. exact M.
    + intros k i r R0. destruct (AT i r R0) as (N & I0 & PA). cbn [gti_inputs]. set (p := gti_inputs E poa k).
      assert (LI : List.length p = List.length rows) by (unfold p; rewrite (gti_inputs_len E poa (eval_len f model mp dew use rows)); exact LP).
      assert (LE : List.length (snd (E p)) = List.length rows) by (unfold E, gti_evaluate; cbn [snd]; rewrite map_length, seq_length; reflexivity).
      rewrite (smap2_nth _ _ _ i NaN NaN NaN); [|lia|rewrite (smap2_length _ _ _ (List.length rows)); lia].
      rewrite (smap2_nth _ _ _ i NaN NaN NaN) by lia. rewrite PA. unfold E at 1, gti_evaluate. cbn [snd]. rewrite nth_map_seq by exact I0. reflexivity.
    + intros i r R0. destruct (AT i r R0) as (N & I0 & PA). destruct (Q i I0) as (B & VB). unfold mismatch in B. fold E in B. fold poa in B. rewrite PA in B. exact B.
  - intros i r R0. destruct (AT i r R0) as (N & I0 & PA). destruct (Q i I0) as (B & VB). rewrite VB. split; [reflexivity|]. split; [apply (guess_values dew use rows)|apply kt_prime_finite].
  - destruct W as (W & WI & NC & CL).
    assert (WC : forall k, all_close E poa (gti_lt_90 rows) k <-> within_1 rows (fun k i => gti_modelled f model mp dew use rows (gti_inputs E poa k) i) k).
    { intros k. assert (A90 : forall i r, nth_error rows i = Some r -> nth i (gti_lt_90 rows) false = fltb (gr_aoi r) #90).
      { intros i r R0. destruct (AT i r R0) as (N & I0 & _). unfold gti_lt_90. rewrite (nth_indep _ false (fltb (gr_aoi gti_row0) #90)) by (rewrite map_length; exact I0).
        rewrite (map_nth (fun r => fltb (gr_aoi r) #90)), N. reflexivity. }
      split.
      - intros C i r R0 A. destruct (AT i r R0) as (N & I0 & PA). destruct (C i ltac:(lia)) as (j & J & L0); [rewrite (A90 i r R0); exact A|]. exists j. split; [exact J|].
        unfold E, poa in L0. rewrite mismatch_at in L0 by exact I0. unfold mismatch in L0. fold E in L0. fold poa in L0. rewrite PA in L0. exact L0.
      - intros C i I1 A. assert (I0 : (i < List.length rows)%nat) by lia. destruct (nth_error rows i) as [r|] eqn:R0; [|apply nth_error_None in R0; lia].
        destruct (AT i r R0) as (N & _ & PA). rewrite (A90 i r R0) in A. destruct (C i r R0 A) as (j & J & L0). exists j. split; [exact J|].
        unfold E, poa. rewrite mismatch_at by exact I0. unfold mismatch. fold E. fold poa. rewrite PA. exact L0. }
    split; [|split; [|split]].
    2: { rewrite WI. split; intros H0 j J C; apply (H0 j J), WC, C. }
    2: { intros k J C. apply (NC k J), WC, C. }
    2: { intros J. apply WC, CL, J. }
    intros i r R0 A NW. destruct (AT i r R0) as (N & I0 & PA). destruct (Q i I0) as (B & VB).
    assert (CB := close_best f model mp dew use rows i K (chosen i) I0). unfold mismatch in CB, B. fold E in CB, B. fold poa in CB, B. rewrite PA in CB, B. apply CB; [|exact B|apply W; exact NW].
    unfold gti_lt_90. rewrite (nth_indep _ false (fltb (gr_aoi gti_row0) #90)) by (rewrite map_length; exact I0). rewrite (map_nth (fun r => fltb (gr_aoi r) #90)), N. exact A.
Qed.
(** the result of a time in front of the plane is the chosen guess, with which the irradiance in the plane is modelled within 1 W/m^2 unless a warning
    is given *)
Theorem C185_reproduces : forall f model mp dew use rows calc max_it out, gti_dirint_series f model mp dew use rows calc max_it = Ok out ->
  List.length out = List.length rows /\
  exists K adjusted modelled kt_prime guess chosen, (1 <= K <= max_it)%nat /\ trace f model mp dew use rows K adjusted modelled kt_prime guess chosen /\
  forall i r o, nth_error rows i = Some r -> nth_error out i = Some o -> fltb (gr_aoi r) #90 = true ->
    o = guess (chosen i) i /\ in_plane f model mp r o (modelled (chosen i) i) /\
    (gti_warns f model mp dew use rows max_it = false -> fle (fabs (fsub (modelled (chosen i) i) (gr_poa r))) #1).
Proof.
  intros f model mp dew use rows calc max_it out H. destruct (trace_exists _ _ _ _ _ _ _ _ _ H) as (best & K & ad & mo & kp & gu & ch & KB & T & G & W & L & P). split; [exact L|].
  exists K, ad, mo, kp, gu, ch. split; [exact KB|]. split; [exact T|]. intros i r o R0 O0 A. destruct (P i r o R0 O0) as (N & I0 & ->). rewrite A. cbv zeta. destruct (G i r R0) as [G1 _].
  cbv zeta in G1. rewrite <- G1. split; [reflexivity|]. split; [apply (tr_modelled _ _ _ _ _ _ _ _ _ _ _ _ T); exact R0|]. apply (proj1 W i r R0 A).
Qed.
Print Assumptions C185_reproduces.

(** the guesses stop at the first number of them with which every time in front of the plane is within 1 W/m^2, or at max_iterations; the warning is given
    exactly when no number of guesses below max_iterations is enough: the last guess is not looked at *)
Theorem C185_warning : forall f model mp dew use rows calc max_it out, gti_dirint_series f model mp dew use rows calc max_it = Ok out ->
  exists K adjusted modelled kt_prime guess chosen, (1 <= K <= max_it)%nat /\ trace f model mp dew use rows K adjusted modelled kt_prime guess chosen /\
  (forall i r o, nth_error rows i = Some r -> nth_error out i = Some o -> fltb (gr_aoi r) #90 = true -> o = guess (chosen i) i) /\
  (forall k, (1 <= k < K)%nat -> ~ within_1 rows modelled k) /\ ((K < max_it)%nat -> within_1 rows modelled K) /\
  (gti_warns f model mp dew use rows max_it = true <-> forall k, (1 <= k < max_it)%nat -> ~ within_1 rows modelled k).
Proof.
  intros f model mp dew use rows calc max_it out H. destruct (trace_exists _ _ _ _ _ _ _ _ _ H) as (best & K & ad & mo & kp & gu & ch & KB & T & G & (_ & WI & NC & CL) & L & P).
  exists K, ad, mo, kp, gu, ch. split; [exact KB|]. split; [exact T|]. split; [|split; [exact NC|split; [exact CL|exact WI]]].
  intros i r o R0 O0 A. destruct (P i r o R0 O0) as (N & I0 & ->). rewrite A. cbv zeta. destruct (G i r R0) as [G1 _]. cbv zeta in G1. rewrite <- G1. reflexivity.
Qed.
Print Assumptions C185_warning.
(** a single guess always gives the warning, whether or not it is within 1 W/m^2 *)
Theorem C185_single_guess_warns : forall f model mp dew use rows calc out, gti_dirint_series f model mp dew use rows calc 1 = Ok out ->
  gti_warns f model mp dew use rows 1 = true.
Proof.
  intros f model mp dew use rows calc out H. destruct (C185_warning _ _ _ _ _ _ _ _ _ H) as (K & ad & mo & kp & gu & ch & _ & _ & _ & _ & _ & W). apply W. intros k J. lia.
Qed.
Print Assumptions C185_single_guess_warns.

(** in front of the plane the three values are never negative and dhi is the difference of ghi and the horizontal part of dni, or 0 if that is negative *)
Theorem C185_closure : forall f model mp dew use rows calc max_it out i r ghi dni dhi, gti_dirint_series f model mp dew use rows calc max_it = Ok out ->
  nth_error rows i = Some r -> nth_error out i = Some (ghi, dni, dhi) -> fltb (gr_aoi r) #90 = true ->
  atleast #0 ghi /\ atleast #0 dni /\ atleast #0 dhi /\ dhi = fmax (fsub ghi (fmul dni (cosd (gr_zenith r)))) #0.
Proof.
  intros f model mp dew use rows calc max_it out i r ghi dni dhi H R0 O0 A. destruct (out_spec _ _ _ _ _ _ _ _ _ H) as (best & F & X & L & P).
  destruct (P i r _ R0 O0) as (N & I0 & OO). destruct (first_spec _ _ _ _ _ _ _ _ X F) as (V & LB & K & KB & W & Q). destruct (Q i I0) as (k & B & VB).
  rewrite A in OO. cbv zeta in OO. rewrite VB in OO. set (p := gti_inputs _ _ k) in OO. clearbody p.
  destruct (guess_values dew use rows p i) as (G1 & G2 & G3 & G4 & G5 & _). rewrite N in G3. apply pair_equal_spec in OO. destruct OO as [OO ->]. apply pair_equal_spec in OO. destruct OO as [-> ->].
  split; [exact G4|]. split; [exact G5|]. split; [rewrite G3; apply fmax_atleast|rewrite G3 at 1; reflexivity].
Qed.
Print Assumptions C185_closure.

(** Finding: a time in front of the plane whose clearness index from the measured irradiance is, corrected for the zenith, above 1 has no DNI and no DHI *)
Theorem C185_bright_missing : forall f model mp dew use rows calc max_it out i r o a m q,
  gti_dirint_series f model mp dew use rows calc max_it = Ok out -> nth_error rows i = Some r -> nth_error out i = Some o ->
  gr_aoi r = #a -> a < 90 -> gr_poa r = #q -> airmass_of r #m -> 0 < m ->
  (forall e, extraterrestrial r #e -> 1 < Rmin (q / (e * Rmax (cosD a) 0.065)) 2 / (1.031 * exp (-1.4 / (0.9 + 9.4 / m)) + 0.1)) ->
  snd (fst o) = NaN /\ snd o = NaN.
Proof.
  intros f model mp dew use rows calc max_it out i r o a m q H R0 O0 A AL Q M M0 BR. destruct (out_spec _ _ _ _ _ _ _ _ _ H) as (best & F & X & L & P).
  destruct (P i r _ R0 O0) as (N & I0 & OO). destruct (first_spec _ _ _ _ _ _ _ _ X F) as (V & LB & K & KB & W & QQ). destruct (QQ i I0) as (k & B & VB).
  rewrite A, fltb_fin, Rltb_t in OO by exact AL. cbv zeta in OO. rewrite OO, VB. cbn [fst snd]. clear OO VB QQ W LB.
  set (E := gti_evaluate f model mp dew use rows) in *. set (poa := gti_measured rows) in *.
  assert (PA : nth i poa NaN = #q) by (unfold poa, gti_measured; change NaN with (gr_poa gti_row0); rewrite map_nth, N; exact Q).
  assert (LP : List.length poa = List.length rows) by (unfold poa, gti_measured; apply map_length).
  destruct (I0_value r) as (e & IE & EB).
  assert (BE : 1 < Rmin (q / (e * Rmax (cosD a) 0.065)) 2 / (1.031 * exp (-1.4 / (0.9 + 9.4 / m)) + 0.1)).
  { apply BR. rewrite <- IE. apply extraterrestrial_I0. }
  (* a guess without DNI *)
  assert (ND : forall p, (forall d, gti_coefficient dew r (gti_kt_prime rows p i) d = NaN) -> gv_dni (gti_guess dew use rows p i) = NaN /\ gv_dhi (gti_guess dew use rows p i) = NaN).
  { intros p C. destruct (guess_values dew use rows p i) as (_ & G2 & G3 & _). rewrite N in *. rewrite G3, G2, C. rewrite fmul_nan_r. split; [reflexivity|].
    rewrite fmul_nan_l. unfold fsub. cbn [fneg]. rewrite fadd_nan_r. reflexivity. }
  assert (C0 : forall d, gti_coefficient dew r (gti_kt_prime rows poa i) d = NaN).
  { intros d. assert (KT : gti_kt_prime rows poa i = #(Rmin (Rmax (Rmin (Rmax (q / (e * Rmax (cosD a) 0.065)) 0) 2 / (1.031 * exp (-1.4 / (0.9 + 9.4 / m)) + 0.1)) 0) 2)).
    { unfold gti_kt_prime, gti_kt. rewrite N, IE, A, PA, (airmass_value _ _ M). rewrite clearness_index_fin; [apply clearness_index_zi_fin; exact M0|].
      assert (0 < Rmax (cosD a) 0.065) by (pose proof (Rmax_r (cosD a) 0.065); lra). assert (0 < e * Rmax (cosD a) 0.065) by (apply Rmult_lt_0_compat; lra). lra. }
    rewrite KT. apply coefficient_above_one. set (y := q / _) in *. pose proof (exp_pos (-1.4 / (0.9 + 9.4 / m))) as XP. set (D := 1.031 * _ + 0.1) in *. assert (0 < D) by (unfold D; lra). clearbody D y.
    assert (Y : D < Rmin y 2). { apply (Rmult_lt_compat_r D) in BE; [|assumption]. unfold Rdiv in BE. rewrite Rmult_assoc, Rinv_l, Rmult_1_r in BE by lra. lra. }
    rewrite (Rmax_left y 0) by (pose proof (Rmin_l y 2); lra). rewrite (Rmax_left (_ / D)) by (assert (0 < Rmin y 2 / D) by (apply Rdiv_lt_0_compat; lra); lra).
    apply Rmin_glb_lt; [exact BE|lra]. }
  (* every later one is made from a missing irradiance *)
  assert (TR : forall p, gv_dni (gti_guess dew use rows p i) = NaN -> gti_modelled f model mp dew use rows p i = NaN).
  { intros p D. unfold gti_modelled, gti_transposed. rewrite N, D. unfold get_total_irradiance. destruct (get_sky_diffuse _ _ _ _ _ _ _ _ _ _ _ _ _) as [s|]; [|reflexivity].
    cbn [bind]. unfold get_ground_diffuse. cbn [bind rmap poa_components poa_global]. unfold rmap. cbn [bind poa_components poa_global]. rewrite fmul_nan_l. reflexivity. }
  assert (IN : forall j, nth i (gti_inputs E poa (S j)) NaN = NaN).
  { assert (STEP : forall j, gti_modelled f model mp dew use rows (gti_inputs E poa j) i = NaN -> nth i (gti_inputs E poa (S j)) NaN = NaN).
    { intros j MJ. cbn [gti_inputs]. set (p := gti_inputs E poa j) in *.
      assert (LI : List.length p = List.length rows) by (unfold p; rewrite (gti_inputs_len E poa (eval_len f model mp dew use rows)); exact LP).
      assert (LE : List.length (snd (E p)) = List.length rows) by (unfold E, gti_evaluate; cbn [snd]; rewrite map_length, seq_length; reflexivity).
      rewrite (smap2_nth _ _ _ i NaN NaN NaN); [|lia|rewrite (smap2_length _ _ _ (List.length rows)); lia].
      rewrite (smap2_nth _ _ _ i NaN NaN NaN) by lia. unfold E at 1, gti_evaluate. cbn [snd]. rewrite nth_map_seq by exact I0. rewrite MJ. unfold fsub. cbn [fadd fneg]. rewrite fmul_nan_r. cbn [fneg]. rewrite fadd_nan_r. apply fmax_nan_r. }
    induction j as [|j IH]; apply STEP; apply TR.
    - apply (ND poa C0).
    - apply ND. intros d. unfold gti_kt_prime, gti_kt. rewrite IH. unfold gti_coefficient.
      match goal with |- context [dirint_coeff ?k ?z ?w ?dd] => destruct (dirint_coeff_total k z w dd) as (v & -> & NV & _) end. apply NV. left. reflexivity. }
  destruct k as [|k]; [split; apply (ND poa C0)|]. apply and_comm. apply and_comm. apply ND.
  intros d. unfold gti_kt_prime, gti_kt. rewrite IN. unfold gti_coefficient.
  match goal with |- context [dirint_coeff ?k ?z ?w ?dd] => destruct (dirint_coeff_total k z w dd) as (v & -> & NV & _) end. apply NV. left. reflexivity.
Qed.
Print Assumptions C185_bright_missing.

(** ** C186 *)
(** times that count for the average of a time behind the plane: the same local day, the same half of it, and an angle of incidence between 65 and 80 *)
Definition half_day (rows : list gti_row) (r : gti_row) (j : nat) : Prop :=
  exists r', nth_error rows j = Some r' /\ (wall (gr_time r') / 86400000000 = wall (gr_time r) / 86400000000)%Z /\
    flt #65 (gr_aoi r') /\ flt (gr_aoi r') #80 /\
    ((flt (gr_azimuth r) #180 /\ flt (gr_azimuth r') #180) \/ (flt #180 (gr_azimuth r) /\ flt #180 (gr_azimuth r'))).
(** the mean of the values that are not missing, missing without such *)
Definition mean_of (l : list fl) (m : fl) : Prop :=
  ((forall x, In x l -> x = NaN) /\ m = NaN) \/
  (exists v vs, filter (fun x => negb (isnan x)) l = map Fin (v :: vs) /\ m = #(fold_left Rplus vs v / INR (S (List.length vs)))).
(** the average for a time: missing at night, for an angle of incidence that is not at least 90 degrees, and at noon *)
Definition averaged (rows : list gti_row) (kts : nat -> fl) (r : gti_row) (avg : fl) : Prop :=
  (avg = NaN /\ ~ (flt (gr_zenith r) #90 /\ fle #90 (gr_aoi r) /\ (flt (gr_azimuth r) #180 \/ flt #180 (gr_azimuth r)))) \/
  (flt (gr_zenith r) #90 /\ fle #90 (gr_aoi r) /\
   exists js, NoDup js /\ (forall j, In j js <-> half_day rows r j) /\ mean_of (map kts js) avg).
Lemma fsum_fin l a : fold_left fadd (map Fin l) #a = #(fold_left Rplus l a).
Proof. revert a. induction l as [|x l IH]; intros a; cbn [map fold_left]; [reflexivity|]. rewrite fadd_fin. apply IH. Qed.
Lemma nanmean_spec l : (forall x, In x l -> x = NaN \/ exists v, x = #v) -> mean_of l (nanmean l).
Proof.
  intros H. assert (F : exists vs, filter (fun x => negb (isnan x)) l = map Fin vs).
  { induction l as [|x l IH]; [exists []; reflexivity|]. destruct IH as [vs E]; [intros y I0; apply H; right; exact I0|]. cbn [filter].
    destruct (H x (or_introl eq_refl)) as [->|[v ->]]; cbn [isnan negb]; [exists vs; exact E|exists (v :: vs); rewrite E; reflexivity]. }
  destruct F as [[|v vs] F]; unfold nanmean; rewrite F.
  - left. split; [|reflexivity]. intros x I0. destruct (H x I0) as [->|[v ->]]; [reflexivity|].
    assert (In #v (filter (fun x => negb (isnan x)) l)) by (apply filter_In; split; [exact I0|reflexivity]). rewrite F in H0. destruct H0.
  - right. exists v, vs. split; [exact F|]. cbn [map]. unfold fsum. cbn [fold_left]. rewrite fadd_fin, Rplus_0_l, fsum_fin. cbn [List.length]. rewrite map_length.
    rewrite fdiv_fin by (apply not_0_INR; lia). reflexivity.
Qed.
Section Behind.
  Variable rows : list gti_row.
  Lemma average_spec (kts : nat -> fl) best i r : nth_error rows i = Some r -> (forall j, (j < List.length rows)%nat -> gv_kt_prime (nth j best gti_nan) = kts j) ->
    (forall j, (j < List.length rows)%nat -> kts j = NaN \/ exists v, kts j = #v) -> averaged rows kts r (gti_kt_prime_gte_90 rows best i).
  Proof.
    intros R0 KS FK. assert (N : nth i rows gti_row0 = r) by (apply nth_error_nth; exact R0). unfold gti_kt_prime_gte_90. rewrite N. unfold gti_back, gti_morning, gti_afternoon.
    assert (AV : forall half, (forall j r', nth_error rows j = Some r' -> (half r' = true <-> ((flt (gr_azimuth r) #180 /\ flt (gr_azimuth r') #180) \/ (flt #180 (gr_azimuth r) /\ flt #180 (gr_azimuth r'))))) ->
      exists js, NoDup js /\ (forall j, In j js <-> half_day rows r j) /\ mean_of (map kts js) (gti_average rows best half (gti_date r))).
    { intros half HH. set (js := filter (fun j => (gti_date (nth j rows gti_row0) =? gti_date r)%Z && (gti_65_80 (nth j rows gti_row0) && half (nth j rows gti_row0))) (seq 0 (List.length rows))).
      exists js. split; [apply NoDup_filter, seq_NoDup|]. split.
      - intros j. unfold js. rewrite filter_In, in_seq. split.
        + intros [J B]. apply andb_prop in B. destruct B as [B1 B]. apply andb_prop in B. destruct B as [B2 B3]. apply andb_prop in B2. destruct B2 as [B2 B4].
          exists (nth j rows gti_row0). assert (RJ : nth_error rows j = Some (nth j rows gti_row0)) by (apply nth_error_nth'; lia). split; [exact RJ|]. split; [apply Z.eqb_eq in B1; exact B1|].
          split; [exact B2|]. split; [exact B4|]. apply (HH j _ RJ). exact B3.
        + intros (r' & RJ & D & A1 & A2 & S0). assert (J : (j < List.length rows)%nat) by (apply nth_error_Some; congruence). split; [lia|].
          rewrite (nth_error_nth _ _ gti_row0 RJ). apply andb_true_intro. split; [apply Z.eqb_eq; exact D|]. apply andb_true_intro. split; [apply andb_true_intro; split; assumption|]. apply (HH j r' RJ). exact S0.
      - unfold gti_average. fold js. replace (map kts js) with (map (fun j => gv_kt_prime (nth j best gti_nan)) js).
        + apply nanmean_spec. intros x I0. apply in_map_iff in I0. destruct I0 as (j & <- & J). unfold js in J. apply filter_In in J. destruct J as [J _]. apply in_seq in J. rewrite KS by lia. apply FK. lia.
        + apply map_ext_in. intros j J. unfold js in J. apply filter_In in J. destruct J as [J _]. apply in_seq in J. apply KS. lia. }
    unfold averaged, flt, fle, fgeb, fgtb. destruct (fltb (gr_zenith r) #90) eqn:ZE; cbn [andb]; [|left; split; [reflexivity|intros (H & _); discriminate H]].
    destruct (fleb #90 (gr_aoi r)) eqn:AE; cbn [andb]; [|left; split; [reflexivity|intros (_ & H & _); discriminate H]].
    destruct (fltb #180 (gr_azimuth r)) eqn:PM.
    - right. split; [reflexivity|]. split; [reflexivity|]. apply AV. intros j r' RJ. unfold gti_afternoon, fgtb, flt.
      assert (NM : fltb (gr_azimuth r) #180 = false) by (apply fltb_asym; exact PM). rewrite NM, PM. intuition congruence.
    - destruct (fltb (gr_azimuth r) #180) eqn:AM.
      + right. split; [reflexivity|]. split; [reflexivity|]. apply AV. intros j r' RJ. unfold gti_morning, flt. rewrite PM, AM. intuition congruence.
      + left. split; [reflexivity|]. intros (_ & _ & [H|H]); discriminate H.
  Qed.
End Behind.
(** what a time behind the plane gets: the DISC beam for the average, put back into a clearness index with the time's airmass, times the DIRINT
    coefficient, without stability index, for the time's OWN kt' (finding: not for the average), and the diffuse irradiance of an isotropic sky *)
Definition behind (dew : bool) (r : gti_row) (own avg : fl) (o : fl * fl * fl) : Prop :=
  let '(ghi, dni, dhi) := o in
  (avg = NaN -> o = (NaN, NaN, NaN)) /\
  (forall k e m z, avg = #k -> extraterrestrial r #e -> airmass_of r #m -> 0 < m -> gr_zenith r = #z ->
     let kt := k * (1.031 * exp (-1.4 / (0.9 + 9.4 / m)) + 0.1) in
     forall own_kt t i j l, own = #own_kt -> (dew = true -> gr_dew r = #t) -> kt_bin_spec own_kt i -> zenith_bin_spec z j -> w_bin_spec (if dew then exp (0.07 * t - 0.075) else -1) l ->
       exists c, table_at i j 6 l = Some c /\ dni = #(Rmax (disc_transmittance kt (Rmin m 12) * e) 0 * c)) /\
  (forall own_kt, own = #own_kt -> 1 < own_kt -> o = (NaN, NaN, NaN)) /\
  atleast #0 dni /\
  (forall x z t p a, dni = #x -> gr_zenith r = #z -> gr_tilt r = #t -> gr_poa r = #p -> gr_albedo r = #a -> 1 + cosD t + a * (1 - cosD t) <> 0 ->
     exists g y, ghi = #g /\ dhi = #y /\ g = x * cosD z + y /\ p = y * (1 + cosD t) / 2 + g * a * (1 - cosD t) / 2 /\
       (0 < 1 + cosD t + a * (1 - cosD t) -> (y < 0 <-> p < x * cosD z * a * (1 - cosD t) / 2))).
Theorem C186_behind : forall f model mp dew use rows max_it out, gti_dirint_series f model mp dew use rows true max_it = Ok out ->
  exists K adjusted modelled kt_prime guess chosen, (1 <= K <= max_it)%nat /\ trace f model mp dew use rows K adjusted modelled kt_prime guess chosen /\
  forall i r o, nth_error rows i = Some r -> nth_error out i = Some o ->
    (fltb (gr_aoi r) #90 = true -> o = guess (chosen i) i) /\
    (fltb (gr_aoi r) #90 = false -> exists avg, averaged rows (fun j => kt_prime (chosen j) j) r avg /\ behind dew r (kt_prime (chosen i) i) avg o).
Proof.
  intros f model mp dew use rows max_it out H. destruct (trace_exists _ _ _ _ _ _ _ _ _ H) as (best & K & ad & mo & kp & gu & ch & KB & T & G & W & L & P).
  exists K, ad, mo, kp, gu, ch. split; [exact KB|]. split; [exact T|]. intros i r o R0 O0. destruct (P i r o R0 O0) as (N & I0 & OO). destruct (G i r R0) as (G1 & G2 & _). cbv zeta in G1.
  split; intros A; rewrite A in OO; cbv zeta in OO; [congruence|].
  exists (gti_kt_prime_gte_90 rows best i). split.
  - apply (average_spec rows (fun j => kp (ch j) j) best i r R0).
    + intros j J. apply (G j (nth j rows gti_row0)). apply nth_error_nth'. exact J.
    + intros j J. cbv beta. destruct (G j (nth j rows gti_row0) ltac:(apply nth_error_nth'; exact J)) as (_ & _ & FK). exact FK.
  - subst o. unfold gti_gte_90_vals. rewrite N, G2. set (avg := gti_kt_prime_gte_90 rows best i). clearbody avg. set (own := kp (ch i) i). clearbody own.
    unfold gti_gte_90. set (dni := fmul (gti_disc r _) _).
    assert (DN : dni = NaN -> forall q, (fadd (fmul dni (cosd (gr_zenith r))) (fdiv (fsub (fmul #2 (gr_poa r)) (fmul (fmul (fmul dni (cosd (gr_zenith r))) (gr_albedo r)) (fsub #1 (cosd (gr_tilt r))))) q),
       dni, fdiv (fsub (fmul #2 (gr_poa r)) (fmul (fmul (fmul dni (cosd (gr_zenith r))) (gr_albedo r)) (fsub #1 (cosd (gr_tilt r))))) q) = (NaN, NaN, NaN)).
    { intros -> q. rewrite !fmul_nan_l. assert (SN : forall x, fsub x NaN = NaN) by (intros x; unfold fsub; cbn [fneg]; apply fadd_nan_r). rewrite SN. reflexivity. }
    unfold behind. split; [|split; [|split; [|split]]].
    + intros ->. apply DN. unfold dni. rewrite fmul_nan_l. unfold gti_disc. 
      assert (KN : fst (disc_kn NaN (gti_airmass r) #12) = NaN) by (unfold disc_kn; cbn [fst fleb where_]; rewrite ?fmul_nan_l, ?fadd_nan_r; cbn; rewrite ?fmul_nan_l, ?fadd_nan_r, ?fadd_nan_l; unfold fsub; cbn [fneg]; rewrite fadd_nan_r; reflexivity).
      rewrite KN, !fmul_nan_l. reflexivity.
    + intros k e m z -> E M M0 Z0 own_kt t ib jb lb -> D B1 B2 B4. set (kt := k * _). apply extraterrestrial_value in E. apply airmass_value in M.
      assert (B3 : dkt_bin_spec (-1) 6) by (right; right; split; reflexivity).
      destruct (coefficient_bins dew r own_kt z (-1) t ib jb 6 lb Z0 D B1 B2 B3 B4) as (c & C & CE). exists c. split; [exact C|]. unfold dni. rewrite CE, M, kt_kt_prime_factor_fin by exact M0.
      rewrite fmul_fin. fold kt. rewrite (disc_fin r kt e m E M), fmul_fin. reflexivity.
    + intros own_kt -> O1. apply DN. unfold dni. rewrite (coefficient_above_one _ _ _ _ O1). apply fmul_nan_r.
    + apply atleast_mul; [apply disc_nonneg|apply coefficient_nonneg].
    + intros x z t p a X Z0 T0 P0 A0 NZ. rewrite X, Z0, T0, P0, A0, !cosd_fin, !fmul_fin, !fsub_fin, !fmul_fin, !fadd_fin, !fsub_fin. rewrite fdiv_fin by exact NZ. rewrite fadd_fin.
      set (D := 1 + cosD t + a * (1 - cosD t)) in *. eexists _, _. split; [reflexivity|]. split; [reflexivity|]. split; [reflexivity|]. split.
      * assert (DE : cosD t = D - 1 - a * (1 - cosD t)) by (unfold D; ring). set (y := _ / D). assert (YE : y * D = 2 * p - x * cosD z * a * (1 - cosD t)) by (unfold y; field; exact NZ).
        unfold D in YE. lra.
      * intros DP. set (num := 2 * p - _). split; intros Q.
        -- assert (num < 0) by (replace num with (num / D * D) by (field; lra); apply Ropp_lt_cancel; rewrite Ropp_0, <- Ropp_mult_distr_l_reverse; apply Rmult_lt_0_compat; lra). unfold num in H0. lra.
        -- assert (num < 0) by (unfold num; lra). apply Ropp_lt_cancel. rewrite Ropp_0. unfold Rdiv. rewrite <- Ropp_mult_distr_l_reverse. apply Rmult_lt_0_compat; [lra|apply Rinv_0_lt_compat; exact DP].
Qed.
Print Assumptions C186_behind.

(** Non-vacuity: two times, one in front of the plane and one behind it, with an isotropic sky; the pressure is chosen for an airmass of 2 *)
Definition ex_row (hour : Z) (pressure : R) (poa aoi : R) : gti_row :=
  {| gr_time := Dt (hour * 3600000000) None; gr_poa := #poa; gr_aoi := #aoi; gr_zenith := #60; gr_azimuth := #100; gr_tilt := #90; gr_surface_azimuth := #180;
     gr_pressure := #pressure; gr_dew := NaN; gr_albedo := #0.25 |}.
Lemma ex_pressure : exists p, forall hour poa aoi, airmass_of (ex_row hour p poa aoi) #2.
Proof.
  set (D := cosD 60 + 0.15 * Rpower (93.885 - 60) (-1.253)).
  assert (DP : 0 < D). { unfold D. assert (0 < cosD 60) by (apply cos_gt_0; unfold Rrad; pose proof PI_RGT_0; lra). unfold Rpower. pose proof (exp_pos (-1.253 * ln (93.885 - 60))). lra. }
  exists (2 * 101325 * D). intros hour poa aoi. exists #(1 / D). split.
  - unfold get_relative_airmass. cbn -[am_kasten1966 airmass_z]. rewrite airmass_z_up by lra. rewrite k66_fin by lra. reflexivity.
  - cbn [gr_pressure ex_row]. unfold get_absolute_airmass. rewrite fmul_fin, fdiv_fin by lra. f_equal. field. lra.
Qed.
Lemma ex_ok f rows max_it dew use calc : (1 <= max_it)%nat -> existsb (fun r => fltb (gr_aoi r) #90) rows = true ->
  exists out, gti_dirint_series f "isotropic" "allsitescomposite1990" dew use rows calc max_it = Ok out.
Proof.
  intros M X. apply existsb_exists in X. destruct X as (r & I0 & R0).
  destruct (gti_dirint_series f "isotropic" "allsitescomposite1990" dew use rows calc max_it) as [out|e] eqn:Q; [eauto|]. exfalso.
  apply C185_errors in Q. destruct Q as [[Q _]|[_ [[Q _]|[_ Q]]]]; [rewrite (Q r I0) in R0; discriminate R0|lia|].
  specialize (Q NaN NaN NaN NaN NaN NaN NaN NaN NaN NaN). discriminate Q.
Qed.

Lemma cosD_60 : cosD 60 = 1 / 2.
Proof. unfold cosD, Rrad. replace (60 * PI / 180) with (PI / 3) by field. apply cos_PI3. Qed.
Lemma ex_e r : exists e, extraterrestrial r #e /\ 1319 <= e <= 1421.
Proof. destruct (I0_value r) as (e & E & B). exists e. split; [rewrite <- E; apply extraterrestrial_I0|lra]. Qed.
(** the factor of the zenith correction for an airmass of 2 *)
Lemma ex_factor : 0.85 <= 1.031 * exp (-1.4 / (0.9 + 9.4 / 2)) + 0.1 <= 1.131.
Proof.
  replace (-1.4 / (0.9 + 9.4 / 2)) with (-0.25) by lra. pose proof (exp_ineq1 (-0.25) ltac:(lra)). assert (exp (-0.25) < 1) by (rewrite <- exp_0; apply exp_increasing; lra). lra.
Qed.
Example C185_bright_example : forall f, exists rows out o, gti_dirint_series f "isotropic" "allsitescomposite1990" false true rows true 30 = Ok out /\
  nth_error out 0 = Some o /\ snd (fst o) = NaN /\ snd o = NaN.
Proof.
  intros f. destruct ex_pressure as [p AP]. set (rows := [ex_row 0 p 1650 0; ex_row 1 p 28 100]). destruct (ex_ok f rows 30 false true true) as [out O1]; [lia|cbn; rewrite Rltb_t by lra; reflexivity|].
  exists rows, out. destruct (C185_reproduces _ _ _ _ _ _ _ _ _ O1) as (L & _). destruct out as [|o out]; [discriminate L|]. exists o. split; [exact O1|]. split; [reflexivity|].
  apply (C185_bright_missing _ _ _ _ _ _ _ _ _ 0 (ex_row 0 p 1650 0) o 0 2 1650 O1); [reflexivity..|lra|reflexivity|apply AP|lra|].
  intros e E. destruct (ex_e (ex_row 0 p 1650 0)) as (e' & E' & B). assert (e = e') by (apply Fin_inj; apply extraterrestrial_value in E; apply extraterrestrial_value in E'; congruence). subst e'.
  rewrite cosD_0. rewrite Rmax_left by lra.
  pose proof ex_factor as F. set (D := 1.031 * _ + 0.1) in *. clearbody D.
  assert (1.161 <= 1650 / (e * 1)) by (rewrite Rmult_1_r; apply (Rmult_le_reg_r e); [lra|]; unfold Rdiv; rewrite Rmult_assoc, Rinv_l by lra; lra).
  assert (1.161 <= Rmin (1650 / (e * 1)) 2) by (apply Rmin_glb; lra). apply (Rmult_lt_reg_r D); [lra|]. unfold Rdiv. rewrite Rmult_assoc, Rinv_l by lra. lra.
Qed.
(** behind the plane: the average exists and the result is that of the isotropic sky *)
Example C186_example : forall f, exists rows out dni ghi dhi, gti_dirint_series f "isotropic" "allsitescomposite1990" false true rows true 1 = Ok out /\
  nth_error out 1 = Some (#ghi, #dni, #dhi) /\ fltb (gr_aoi (nth 1 rows gti_row0)) #90 = false /\ 0 <= dni /\ ghi = dni * (1 / 2) + dhi /\ 28 = dhi / 2 + ghi * 0.25 / 2.
Proof.
  intros f. destruct ex_pressure as [p AP]. set (r0 := ex_row 0 p 200 70). set (r1 := ex_row 1 p 28 100). set (rows := [r0; r1]). destruct (ex_ok f rows 1 false true true) as [out O1]; [lia|cbn; rewrite Rltb_t by lra; reflexivity|].
  destruct (C186_behind _ _ _ _ _ _ _ _ O1) as (K & ad & mo & kp & gu & ch & KB & T & P). destruct (C185_reproduces _ _ _ _ _ _ _ _ _ O1) as (L & _).
  destruct out as [|o0 out]; [discriminate L|]. destruct out as [|o1 out]; [discriminate L|].
  destruct (P 1%nat r1 o1 eq_refl eq_refl) as [_ B]. destruct B as (avg & A & B). { cbn [gr_aoi r1 ex_row]. rewrite fltb_fin. apply Rltb_false. lra. }
  assert (CH : forall i r, nth_error rows i = Some r -> ch i = 0%nat). { intros i r R0. destruct (tr_chosen _ _ _ _ _ _ _ _ _ _ _ _ T i r R0) as [C _]. lia. }
  rewrite (CH 1%nat r1 eq_refl) in B.
  destruct (ex_e r0) as (e0 & E0 & EB0). destruct (ex_e r1) as (e1 & E1 & EB1).
  pose proof (tr_guess _ _ _ _ _ _ _ _ _ _ _ _ T 0 0 r0 eq_refl) as G0. pose proof (tr_guess _ _ _ _ _ _ _ _ _ _ _ _ T 0 1 r1 eq_refl) as G1.
  rewrite (tr_start _ _ _ _ _ _ _ _ _ _ _ _ T 0 r0 eq_refl) in G0. rewrite (tr_start _ _ _ _ _ _ _ _ _ _ _ _ T 1 r1 eq_refl) in G1.
  destruct (G0 70 60 e0 2 200 eq_refl eq_refl E0 (AP _ _ _) ltac:(lra) eq_refl) as (K0 & _). destruct (G1 100 60 e1 2 28 eq_refl eq_refl E1 (AP _ _ _) ltac:(lra) eq_refl) as (K1 & _).
  pose proof ex_factor as F. set (D := 1.031 * _ + 0.1) in *.
  (* the average *)
  assert (AV : exists k, avg = #k).
  { destruct A as [[_ A]|(_ & _ & js & ND & J & M)].
    - exfalso. apply A. cbn [gr_zenith gr_aoi gr_azimuth r1 ex_row]. unfold flt, fle. rewrite !fltb_fin, fleb_fin. split; [apply Rltb_true; lra|]. split; [apply Rleb_true; lra|]. left. apply Rltb_true. lra.
    - assert (J0 : In 0%nat js). { apply J. exists r0. split; [reflexivity|]. split; [reflexivity|]. cbn [gr_aoi gr_azimuth r0 r1 ex_row]. unfold flt. rewrite !fltb_fin. split; [apply Rltb_true; lra|]. split; [apply Rltb_true; lra|]. left. split; apply Rltb_true; lra. }
      destruct M as [[M _]|(v & vs & _ & ->)]; [|eauto]. exfalso. specialize (M (kp (ch 0%nat) 0%nat) (in_map _ _ _ J0)). rewrite (CH 0%nat r0 eq_refl), K0 in M. discriminate M. }
  destruct AV as [k ->]. destruct o1 as [[ghi dni] dhi]. unfold behind in B. destruct B as (_ & B & _ & N & I).
  assert (Y : 0.24 <= Rmin (Rmax (Rmin (Rmax (28 / (e1 * Rmax (cosD 100) 0.065)) 0) 2 / D) 0) 2 < 0.4).
  { assert (C100 : cosD 100 <= 0) by (unfold cosD, Rrad; apply cos_le_0; pose proof PI_RGT_0; lra). rewrite (Rmax_right (cosD 100)) by lra. clearbody D.
    assert (Q : 0.3 <= 28 / (e1 * 0.065) <= 0.33).
    { assert (0 < e1 * 0.065) by lra. split; apply (Rmult_le_reg_r (e1 * 0.065)); try assumption; unfold Rdiv; rewrite Rmult_assoc, Rinv_l by lra; lra. }
    rewrite (Rmax_left (28 / _)) by lra. rewrite (Rmin_left (28 / _)) by lra. set (y := 28 / (e1 * 0.065)) in *. clearbody y.
    assert (Q2 : 0.24 <= y / D < 0.4).
    { split; [apply (Rmult_le_reg_r D)|apply (Rmult_lt_reg_r D)]; try lra; unfold Rdiv; rewrite Rmult_assoc, Rinv_l by lra; lra. }
    rewrite Rmax_left by lra. rewrite Rmin_left by lra. exact Q2. }
  destruct (B k e1 2 60 eq_refl E1 (AP _ _ _) ltac:(lra) eq_refl _ 0 1%nat 3%nat 4%nat K1) as (c & C & X).
  { discriminate. } { left. exists 0.24, 0.4. split; [reflexivity|]. split; [reflexivity|exact Y]. } { left. exists 55, 70. split; [reflexivity|]. split; [reflexivity|lra]. }
  { right. right. split; reflexivity. }
  destruct (I _ 60 90 28 0.25 X eq_refl eq_refl eq_refl eq_refl) as (g & y & -> & -> & GE & PE & _).
  { rewrite cosD_90. lra. }
  rewrite X in N. exists rows, (o0 :: (#g, dni, #y) :: out).
  exists (Rmax (disc_transmittance (k * D) (Rmin 2 12) * e1) 0 * c), g, y. rewrite X. split; [rewrite <- X; exact O1|]. split; [reflexivity|].
  split; [cbn [nth rows gr_aoi r1 ex_row]; rewrite fltb_fin; apply Rltb_false; lra|]. split; [destruct N as [N|N]; [discriminate N|apply fle_fin in N; exact N]|].
  rewrite cosD_90 in PE. split; [rewrite GE, cosD_60; reflexivity|]. rewrite PE. lra.
Qed.
