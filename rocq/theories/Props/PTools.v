(** C34-C36, C58-C60: pvlib.tools. *)
From Verif Require Import Base.Fl Base.FlFacts Base.Py Base.Round Base.Trig Model.Tools Spec.ToolsSpec Proofs.ToolsP.
From Coq Require Import ZArith Lia Lra Psatz.
Open Scope R_scope.

(** ** C34.  A batch of searches; each row is either finite with lower <= upper or has a nan bound. *)
Theorem C34_stops_at_first_small_bracket : forall rows atol,
  0 < atol -> Forall good rows ->
  exists k,
    (forall fuel, (k < fuel)%nat -> golden_sect fuel rows #atol = golden_sect (S k) rows #atol) /\
    (forall fuel, (fuel <= k)%nat -> golden_sect fuel rows #atol = Ok None) /\
    (exists out, golden_sect (S k) rows #atol = Ok (Some out) /\ length out = length rows) /\
    (forall r, In r rows -> nanrow r \/ (sqrt 5 - 2) * (golden ^ k * width r) < atol) /\
    (k = 0%nat \/ exists r, In r rows /\ ~ nanrow r /\ atol <= (sqrt 5 - 2) * (golden ^ (k - 1) * width r)).
Proof.
  intros rows atol Ha HG. destruct (gs_eventually atol rows Ha HG) as [n Hn].
  destruct (first_true (fun n => gs_converged #atol (gs_iter n (map gs_next) rows)) n Hn) as (k & Hk & Hlt).
  exists k. pose proof (loop_run #atol k rows Hlt Hk) as L. unfold golden_sect. rewrite (good_not_raised rows HG).
  split; [|split; [|split; [|split]]].
  - intros fuel Hf. rewrite !L. destruct (Nat.ltb_spec k fuel); [|lia]. destruct (Nat.ltb_spec k (S k)); [reflexivity|lia].
  - intros fuel Hf. rewrite L. destruct (Nat.ltb_spec k fuel); [lia|reflexivity].
  - rewrite L. destruct (Nat.ltb_spec k (S k)); [|lia]. eexists. split; [reflexivity|].
    rewrite map_length, iter_map, map_length. reflexivity.
  - apply conv_iter in Hk; [|exact HG]. rewrite Forall_forall in Hk. exact Hk.
  - destruct k as [|k]; [left; reflexivity|right]. specialize (Hlt k ltac:(lia)).
    replace (S k - 1)%nat with k by lia.
    assert (N : ~ Forall (fun r => nanrow r \/ (sqrt 5 - 2) * (golden ^ k * width r) < atol) rows)
      by (intros F; apply (conv_iter atol k rows HG) in F; congruence).
    assert (D : forall r, (nanrow r \/ (sqrt 5 - 2) * (golden ^ k * width r) < atol) \/
                          ~ (nanrow r \/ (sqrt 5 - 2) * (golden ^ k * width r) < atol)) by (intros r; apply Classical_Prop.classic).
    clear -N D. induction rows as [|r rows IH]; [exfalso; apply N; constructor|].
    destruct (D r) as [Hr|Hr].
    + destruct IH as (r' & H1 & H2); [|exists r'; split; [right; exact H1|exact H2]].
      intros F. apply N. constructor; assumption.
    + exists r. split; [left; reflexivity|]. split; [tauto|]. apply Rnot_lt_le. tauto.
Qed.
Print Assumptions C34_stops_at_first_small_bracket.
(** every finite row's answer is the midpoint of a sub-bracket of [lower, upper]; nan rows give nan *)
Theorem C34_result_inside_bracket : forall rows atol fuel out i r,
  Forall good rows -> golden_sect fuel rows #atol = Ok (Some out) -> nth_error rows i = Some r ->
  (nanrow r -> exists v, nth_error out i = Some (v, NaN)) /\
  (forall lo hi, r = frow lo hi (gs_obj r) -> lo <= hi ->
     exists x, lo <= x <= hi /\ nth_error out i = Some (gs_obj r #x, if isnan (gs_obj r #x) then NaN else #x)).
Proof.
  intros rows atol fuel out i r HG E Hi. unfold golden_sect in E. rewrite (good_not_raised rows HG) in E.
  destruct (gs_loop fuel #atol rows) as [l|] eqn:EL; [|discriminate]. cbn [option_map] in E. injection E as <-.
  assert (EK : exists k, l = gs_iter k (map gs_next) rows).
  { clear -EL. revert rows EL. induction fuel as [|fuel IH]; intros rows EL; [discriminate|]. cbn [gs_loop] in EL.
    destruct (gs_converged #atol rows); [injection EL as <-; exists 0%nat; reflexivity|].
    destruct (IH _ EL) as [k Hk]. exists (S k). exact Hk. }
  destruct EK as [k ->]. rewrite iter_map, map_map, nth_error_map, Hi. cbn [option_map]. split.
  - intros Hn. pose proof (out_nan _ (nan_iter k r Hn)) as Ho. destruct (gs_out (gs_iter k gs_next r)) as [v x]. cbn in Ho. subst x. exists v. reflexivity.
  - intros lo hi Er Hle. destruct (iter_fin k lo hi (gs_obj r) Hle) as (a & b & E2 & H1 & H2 & H3 & H4).
    rewrite <- Er in E2. rewrite E2, out_fin. exists ((a + b) / 2). split; [lra|reflexivity].
Qed.
Print Assumptions C34_result_inside_bracket.
(** for a unimodal objective the answer is within (sqrt 5 + 2)/2 (about 2.12) times atol of the maximiser *)
Theorem C34_unimodal_accuracy : forall rows atol fuel out i r lo hi g m,
  Forall good rows -> golden_sect fuel rows #atol = Ok (Some out) -> nth_error rows i = Some r ->
  r = frow lo hi (gs_obj r) -> lo <= hi -> (forall x, lo <= x <= hi -> gs_obj r #x = #(g x)) -> unimodal g lo m hi ->
  exists x, nth_error out i = Some (#(g x), #x) /\ lo <= x <= hi /\ Rabs (x - m) < (sqrt 5 + 2) / 2 * atol.
Proof.
  intros rows atol fuel out i r lo hi g m HG E Hi Er Hle Hg Hu. unfold golden_sect in E. rewrite (good_not_raised rows HG) in E.
  destruct (gs_loop fuel #atol rows) as [l|] eqn:EL; [|discriminate]. cbn [option_map] in E. injection E as <-.
  assert (EK : exists k, l = gs_iter k (map gs_next) rows /\ gs_converged #atol l = true).
  { clear -EL. revert rows EL. induction fuel as [|fuel IH]; intros rows EL; [discriminate|]. cbn [gs_loop] in EL.
    destruct (gs_converged #atol rows) eqn:C; [injection EL as <-; exists 0%nat; split; [reflexivity|exact C]|].
    destruct (IH _ EL) as [k Hk]. exists (S k). exact Hk. }
  destruct EK as (k & -> & C). apply conv_iter in C; [|exact HG]. rewrite Forall_forall in C.
  specialize (C r (nth_error_In _ _ Hi)).
  destruct (iter_unimodal k lo hi (gs_obj r) g m Hle Hg Hu) as (a & b & E2 & H1 & H2 & H3 & H4). rewrite <- Er in E2.
  rewrite iter_map, map_map, nth_error_map, Hi. cbn [option_map]. rewrite E2, out_fin, Hg by lra. cbn [isnan].
  exists ((a + b) / 2). split; [reflexivity|]. split; [lra|].
  destruct C as [C|C]; [rewrite Er in C; destruct C; discriminate|].
  assert (EW : width r = hi - lo) by (rewrite Er; reflexivity). rewrite EW, <- H3 in C.
  pose proof sqrt5_bounds as S5. pose proof sqrt5_sq as SQ.
  assert (B : b - a < (sqrt 5 + 2) * atol).
  { assert (Q : (sqrt 5 - 2) * (sqrt 5 + 2) = 1) by lra.
    replace (b - a) with ((sqrt 5 + 2) * ((sqrt 5 - 2) * (b - a))) by (rewrite <- Rmult_assoc, (Rmult_comm (sqrt 5 + 2)), Q; ring).
    apply Rmult_lt_compat_l; lra. }
  apply Rabs_def1; lra.
Qed.
Print Assumptions C34_unimodal_accuracy.
Theorem C34_reversed_bracket_raises : forall rows atol fuel,
  golden_sect fuel rows atol = Err ValueError <->
  exists r, In r rows /\ fltb (gs_hi r - gs_lo r)%fl #0 = true.
Proof.
  intros. unfold golden_sect. rewrite <- existsb_exists. destruct (existsb _ rows); split; try reflexivity; try discriminate.
Qed.
Print Assumptions C34_reversed_bracket_raises.
(** with atol <= 0 and at least one finite row the loop never ends *)
Theorem C34_nonpositive_atol_never_stops : forall rows atol fuel r,
  atol <= 0 -> Forall good rows -> In r rows -> ~ nanrow r -> golden_sect fuel rows #atol = Ok None.
Proof.
  intros rows atol fuel r Ha HG Hr Hn. unfold golden_sect. rewrite (good_not_raised rows HG), loop_none; [reflexivity|].
  intros j. destruct (gs_converged _ _) eqn:C; [exfalso|reflexivity]. apply conv_iter in C; [|exact HG].
  rewrite Forall_forall in C. destruct (C r Hr) as [H|H]; [contradiction|].
  rewrite Forall_forall in HG. destruct (HG r Hr) as [H'|(lo & hi & E & Hle)]; [contradiction|].
  assert (EW : width r = hi - lo) by (rewrite E; reflexivity). rewrite EW in H.
  assert (0 <= golden ^ j * (hi - lo)) by (apply Rmult_le_pos; [apply pow_le; pose proof golden_bounds; lra|lra]).
  pose proof sqrt5_bounds. assert (0 <= (sqrt 5 - 2) * (golden ^ j * (hi - lo))) by (apply Rmult_le_pos; lra). lra.
Qed.
Print Assumptions C34_nonpositive_atol_never_stops.
(** a parabola with maximum at 3 on [0, 10], next to a row with a nan bound *)
Definition parabola (x : fl) : fl := fneg (fmul (fsub x #3) (fsub x #3)).
Example C34_parabola_hypotheses :
  let rows := [frow 0 10 parabola; GsRow NaN #10 parabola] in
  Forall good rows /\ (forall x, 0 <= x <= 10 -> parabola #x = #(- ((x - 3) * (x - 3)))) /\
  unimodal (fun x => - ((x - 3) * (x - 3))) 0 3 10.
Proof.
  cbn zeta. split; [|split].
  - constructor; [right; exists 0, 10; split; [reflexivity|lra]|]. constructor; [left; left; reflexivity|constructor].
  - intros. unfold parabola. fin. reflexivity.
  - split; [lra|]. split; intros; nra.
Qed.

(** ** C35 *)
Theorem C35_latitude_nearest_cell : forall d, -90 <= d <= 90 ->
  exists k, degrees_to_index #d Latitude = Ok k /\ (0 <= k <= 2159)%Z /\ Rabs (lat_centre k - d) <= 1/24.
Proof.
  intros d Hd. rewrite lat_index. cbn zeta.
  destruct (index_case ((90 - d) * 12 - 1/2) 2159 2159 eq_refl ltac:(lra)) as (H & _).
  destruct H as (k & E & Hk & Hn); [lra|]. exists k. split; [exact E|]. split; [exact Hk|].
  unfold lat_centre. apply Rabs_le. unfold Rabs in Hn. destruct (Rcase_abs _) in Hn; lra.
Qed.
Print Assumptions C35_latitude_nearest_cell.
Theorem C35_longitude_nearest_cell : forall d, -180 <= d <= 180 ->
  exists k, degrees_to_index #d Longitude = Ok k /\ (0 <= k <= 4319)%Z /\ Rabs (lon_centre k - d) <= 1/24.
Proof.
  intros d Hd. rewrite lon_index. cbn zeta.
  destruct (index_case ((d + 180) * 12 - 1/2) 4319 4319 eq_refl ltac:(lra)) as (H & _).
  destruct H as (k & E & Hk & Hn); [lra|]. exists k. split; [exact E|]. split; [exact Hk|].
  unfold lon_centre. apply Rabs_le. unfold Rabs in Hn. destruct (Rcase_abs _) in Hn; lra.
Qed.
Print Assumptions C35_longitude_nearest_cell.
(** exactly the margin 1e-6/12 degree outside the range is tolerated; everything else raises ValueError *)
Theorem C35_out_of_range_raises : forall d,
  (degrees_to_index #d Latitude = Err ValueError <-> d < -90 - 0.000001 / 12 \/ 90 + 0.000001 / 12 < d) /\
  (degrees_to_index #d Longitude = Err ValueError <-> d < -180 - 0.000001 / 12 \/ 180 + 0.000001 / 12 < d).
Proof.
  intros d. rewrite lat_index, lon_index. cbn zeta. split.
  - destruct (index_case ((90 - d) * 12 - 1/2) 2159 2159 eq_refl ltac:(lra)) as (A & B & C & D). split; intros H.
    + destruct (Rlt_dec d (-90 - 0.000001 / 12)); [left; assumption|]. destruct (Rlt_dec (90 + 0.000001 / 12) d); [right; assumption|exfalso].
      destruct (Rlt_dec ((90 - d) * 12 - 1/2) 0); [rewrite C in H by lra; discriminate|].
      destruct (Rlt_dec 2159 ((90 - d) * 12 - 1/2)); [rewrite D in H by lra; discriminate|].
      destruct A as (k & E & _); [lra|]. rewrite E in H; discriminate.
    + apply B. lra.
  - destruct (index_case ((d + 180) * 12 - 1/2) 4319 4319 eq_refl ltac:(lra)) as (A & B & C & D). split; intros H.
    + destruct (Rlt_dec d (-180 - 0.000001 / 12)); [left; assumption|]. destruct (Rlt_dec (180 + 0.000001 / 12) d); [right; assumption|exfalso].
      destruct (Rlt_dec ((d + 180) * 12 - 1/2) 0); [rewrite C in H by lra; discriminate|].
      destruct (Rlt_dec 4319 ((d + 180) * 12 - 1/2)); [rewrite D in H by lra; discriminate|].
      destruct A as (k & E & _); [lra|]. rewrite E in H; discriminate.
    + apply B. lra.
Qed.
Print Assumptions C35_out_of_range_raises.
Theorem C35_other_inputs_raise : forall d, degrees_to_index d OtherCoord = Err ValueError /\
  forall c, degrees_to_index NaN c = Err ValueError /\ degrees_to_index PInf c = Err ValueError /\ degrees_to_index NInf c = Err ValueError.
Proof.
  intros d. split; [reflexivity|]. intros c.
  assert (E1 : 2160 / (-90 - 90) = - (12)) by field. assert (E2 : 4320 / (180 - -180) = 12) by field.
  repeat split; destruct c; try reflexivity; unfold degrees_to_index; rewrite ?E1, ?E2; cbn; unfold sinf, Rpos, Rneg; rdec; reflexivity.
Qed.
Print Assumptions C35_other_inputs_raise.
Example C35_north_pole_and_edge : degrees_to_index #90 Latitude = Ok 0%Z /\ degrees_to_index #180 Longitude = Ok 4319%Z.
Proof.
  rewrite lat_index, lon_index. cbn zeta. split.
  - destruct (index_case ((90 - 90) * 12 - 1/2) 2159 2159 eq_refl ltac:(lra)) as (_ & _ & C & _). apply C. lra.
  - destruct (index_case ((180 + 180) * 12 - 1/2) 4319 4319 eq_refl ltac:(lra)) as (_ & _ & _ & D). apply D. lra.
Qed.

(** ** C36.  The round trip holds for every djd value within half a microsecond of the exact one, so it tolerates
    that much rounding error in the float computation. *)
Theorem C36_round_trip : forall t z d,
  Rabs (d - datetime_to_djd t) * IZR us_per_day < 1/2 -> utc_instant (djd_to_datetime d z) = utc_instant t.
Proof. exact djd_roundtrip. Qed.
Print Assumptions C36_round_trip.
Theorem C36_round_trip_exact : forall t z, utc_instant (djd_to_datetime (datetime_to_djd t) z) = utc_instant t.
Proof.
  intros. apply djd_roundtrip. replace (datetime_to_djd t - datetime_to_djd t) with 0 by ring. rewrite Rabs_R0. lra.
Qed.
Print Assumptions C36_round_trip_exact.
(** the returned wall clock is the instant in the requested zone, with that zone's offset *)
Theorem C36_zone : forall d z, exists u, djd_to_datetime d z = Dt (u + z u) (Some (z u)).
Proof. intros. eexists. reflexivity. Qed.
Print Assumptions C36_zone.
(** djd counts days (and their fractions) from 1899-12-31 12:00 UTC; naive times count as UTC *)
Theorem C36_djd_counts_days : forall t u,
  datetime_to_djd t - datetime_to_djd u = IZR (utc_instant t - utc_instant u) / IZR us_per_day /\
  (utc_instant t = djd_start -> datetime_to_djd t = 0) /\
  datetime_to_djd (Dt (wall t) None) = datetime_to_djd (Dt (wall t) (Some 0%Z)).
Proof.
  intros t u. split; [|split].
  - unfold datetime_to_djd, us_per_day. rewrite !minus_IZR. field.
  - intros E. unfold datetime_to_djd. rewrite E, Z.sub_diag. field.
  - unfold datetime_to_djd, utc_instant. cbn [offset wall]. rewrite Z.sub_0_r. reflexivity.
Qed.
Print Assumptions C36_djd_counts_days.
(** 2000-01-01T12:00Z is DJD 36525 *)
Example C36_j2000 : datetime_to_djd (Dt (946728000 * 1000000) None) = 36525.
Proof.
  unfold datetime_to_djd, utc_instant. cbn [offset wall].
  replace (946728000 * 1000000 - djd_start)%Z with 3155760000000000%Z by (vm_compute; reflexivity). field.
Qed.

(** ** C58 *)
Theorem C58_kwargs_exactly_requested_and_present : forall A keys (d : list (string * A)) k v,
  In (k, v) (build_kwargs keys d) <-> In k keys /\ lookup k d = Some v.
Proof. exact @kwargs_spec. Qed.
Print Assumptions C58_kwargs_exactly_requested_and_present.
Theorem C58_args_in_order_or_keyerror : forall A keys (d : list (string * A)),
  (forall args, build_args keys d = Ok args <-> Forall2 (fun k v => lookup k d = Some v) keys args) /\
  ((exists e, build_args keys d = Err e) <-> exists k, In k keys /\ lookup k d = None) /\
  (forall e, build_args keys d = Err e -> e = KeyError).
Proof.
  intros A keys d.
  assert (G : forall k v, getitem d k = Ok v <-> lookup k d = Some v).
  { intros k v. unfold getitem. destruct (lookup k d); split; congruence. }
  split; [|split].
  - intros args. unfold build_args. rewrite mapM_ok. split; intros H.
    + induction H; constructor; auto. apply G, H.
    + induction H; constructor; auto. apply G, H.
  - unfold build_args. induction keys as [|k keys IH]; cbn [mapM].
    + split; [intros [e H]; discriminate|intros (k & [] & _)].
    + unfold bind, getitem at 1. destruct (lookup k d) as [v|] eqn:E.
      * destruct (mapM (getitem d) keys) as [l|e] eqn:E2.
        -- split; [intros [e H]; discriminate|]. intros (k' & [<-|Hk] & Hn); [congruence|].
           destruct (proj2 IH) as [e He]; [exists k'; auto|]. discriminate.
        -- split; [|intros _; exists e; reflexivity]. intros _. destruct (proj1 IH) as (k' & Hk & Hn); [exists e; reflexivity|].
           exists k'. split; [right; exact Hk|exact Hn].
      * split; [|intros _; exists KeyError; reflexivity]. intros _. exists k. split; [left; reflexivity|exact E].
  - unfold build_args. induction keys as [|k keys IH]; cbn [mapM]; intros e; [discriminate|].
    unfold bind, getitem at 1. destruct (lookup k d); [|intros [= <-]; reflexivity].
    destruct (mapM (getitem d) keys) as [l|e'] eqn:E2; [discriminate|]. intros [= <-]. apply IH. reflexivity.
Qed.
Print Assumptions C58_args_in_order_or_keyerror.
Example C58_example : build_kwargs ["a"; "c"]%string [("b", 1); ("a", 2)]%string = [("a", 2)]%string.
Proof. reflexivity. Qed.

(** ** C59 *)
Theorem C59_uneven_sampling_raises : forall fi deltas w,
  get_sample_intervals fi deltas w = Err NotImplementedError <->
  (fi = false \/ deltas = [] \/ exists x y, In x deltas /\ In y deltas /\ x <> y).
Proof.
  intros fi deltas w. unfold get_sample_intervals. destruct deltas as [|d ds]; [tauto|].
  destruct fi; cbn [andb]; [|tauto].
  destruct (forallb (fun x => Reqb x d) ds) eqn:F.
  - rewrite forallb_forall in F.
    assert (A : forall x, In x (d :: ds) -> x = d) by (intros x [<-|H]; [reflexivity|apply Reqb_true, F, H]).
    split.
    + destruct (Reqb _ 0); discriminate.
    + intros [H|[H|(x & y & Hx & Hy & N)]]; try discriminate. exfalso. apply N. rewrite (A x Hx), (A y Hy). reflexivity.
  - split; [|reflexivity]. intros _. right; right.
    assert (exists x, In x ds /\ Reqb x d = false) as (x & Hx & E).
    { clear -F. induction ds as [|x ds IH]; [discriminate|]. cbn [forallb] in F. apply andb_false_iff in F as [F|F].
      - exists x. split; [left; reflexivity|exact F].
      - destruct (IH F) as (y & Hy & E). exists y. split; [right; exact Hy|exact E]. }
    exists x, d. split; [right; exact Hx|]. split; [left; reflexivity|]. apply Reqb_false, E.
Qed.
Print Assumptions C59_uneven_sampling_raises.
(** below one day the window holds the whole number of samples that fit *)
Theorem C59_samples_per_window : forall d ds w, 0 < d < 1440 -> 0 <= w -> (forall x, In x ds -> x = d) ->
  exists n, get_sample_intervals true (d :: ds) w = Ok (d, n) /\ IZR n * d <= w < (IZR n + 1) * d.
Proof.
  intros d ds w Hd Hw Hall. unfold get_sample_intervals.
  rewrite (proj2 (forallb_forall _ ds)) by (intros x Hx; apply Reqb_t, Hall, Hx). cbn [andb].
  assert (EI : Int_part (d * 60 / 86400) = 0%Z).
  { pose proof (Int_part_bounds (d * 60 / 86400)) as [H1 H2].
    assert (IZR (Int_part (d * 60 / 86400)) < IZR 1) by lra. assert (IZR (-1) < IZR (Int_part (d * 60 / 86400))) by lra.
    apply lt_IZR in H. apply lt_IZR in H0. lia. }
  assert (EM : Rmodp (d * 60) 86400 / 60 = d) by (unfold Rmodp; rewrite EI; field).
  rewrite EM. rewrite Reqb_f by lra. eexists. split; [reflexivity|].
  pose proof (ftrunc_nonneg (w / d)) as F. assert (0 <= w / d) by (apply Rmult_le_pos; [lra|left; apply Rinv_0_lt_compat; lra]).
  specialize (F H). assert (EW : w = w / d * d) by (field; lra). rewrite EW at 2 3. split.
  - apply Rmult_le_compat_r; lra.
  - apply Rmult_lt_compat_r; lra.
Qed.
Print Assumptions C59_samples_per_window.
(** FINDING: the day part of the interval is dropped, so daily data divides by zero *)
Theorem C59_daily_data_divides_by_zero : forall ds w, (forall x, In x ds -> x = 1440) ->
  get_sample_intervals true (1440 :: ds) w = Err ZeroDivisionError.
Proof.
  intros ds w Hall. unfold get_sample_intervals.
  rewrite (proj2 (forallb_forall _ ds)) by (intros x Hx; apply Reqb_t, Hall, Hx). cbn [andb].
  assert (EI : Int_part (1440 * 60 / 86400) = 1%Z).
  { pose proof (Int_part_bounds (1440 * 60 / 86400)) as [H1 H2].
    assert (IZR (Int_part (1440 * 60 / 86400)) < IZR 2) by lra. assert (IZR 0 < IZR (Int_part (1440 * 60 / 86400))) by lra.
    apply lt_IZR in H. apply lt_IZR in H0. lia. }
  unfold Rmodp. rewrite EI. rewrite Reqb_t by field. reflexivity.
Qed.
Print Assumptions C59_daily_data_divides_by_zero.

(** ** C60 *)
Theorem C60_normalised_by_largest_magnitude : forall x l, (exists y, In y (x :: l) /\ y <> 0) ->
  exists M, 0 < M /\ normalize_max2one (map Fin (x :: l)) = map Fin (map (fun y => y / M) (x :: l)) /\
    (forall y, In y (x :: l) -> Rabs y <= M) /\ (exists y, In y (x :: l) /\ Rabs y = M).
Proof. exact normalize_fin. Qed.
Print Assumptions C60_normalised_by_largest_magnitude.
(** the centred difference is exact on quadratics and its error on cubics is the leading coefficient times dx^2 *)
Theorem C60_centered_difference : forall a b c e x0 dx, dx <> 0 ->
  centered_difference (fun x => a + b * x + c * x ^ 2 + e * x ^ 3) x0 dx = (b + 2 * c * x0 + 3 * e * x0 ^ 2) + e * dx ^ 2.
Proof. intros. unfold centered_difference. field. assumption. Qed.
Print Assumptions C60_centered_difference.
