(** Properties of the NREL solar position algorithm (spa.py) and its wrappers: C108-C113. *)
From Verif Require Import Base.Fl Base.FlFacts Base.Py Base.Trig Model.SolarPosition Model.SpaTables Model.Spa Spec.SolarSpec Spec.SpaSpec
  Proofs.SolarP Proofs.EphemP Proofs.SpaP Proofs.SpaGeom Proofs.SpaRest Proofs.SpaRise.
From Coq Require Import ZArith Psatz String.
Open Scope R_scope.
Open Scope list_scope.

Lemma Ok_inj {A} (a b : A) : Ok a = Ok b -> a = b. Proof. congruence. Qed.

(** ** C108: azimuth and elevation *)
(** years -2000 to 6000; any site off the poles *)
Theorem C108_direction : forall u dt lat lon elev pressure temp refract,
  Rabs (millennia (tt_days u dt)) <= 4 -> -90 < lat < 90 -> Rabs elev <= 1000000 ->
  exists px py az e0, observer (lat * PI / 180) elev px py /\
    let o := spa_at (Site #lat #lon #elev pressure temp refract) (spa_of_time u dt) in
    o_phi o = #az /\ 0 <= az < 360 /\ o_e0 o = #e0 /\ -90 <= e0 <= 90 /\ spa_pointing u dt lat lon px py az e0.
Proof.
  intros u dt lat lon elev pr te rf Ht Hl He. destruct (spa_dir u dt lat lon elev pr te rf Ht Hl He) as (px & py & az & e0 & eot & O & A & B & C & D & _ & _ & _ & _ & P).
  exists px, py, az, e0. tauto.
Qed.
Print Assumptions C108_direction.
(** the observer's position is determined by latitude and height *)
Theorem C108_observer_unique : forall lat h px py px' py', -90 < lat < 90 ->
  observer (lat * PI / 180) h px py -> observer (lat * PI / 180) h px' py' -> px = px' /\ py = py'.
Proof.
  intros lat h px py px' py' L. apply observer_unique. pose proof PI_3141. apply cos_gt_0; nra.
Qed.
Print Assumptions C108_observer_unique.
Theorem C108_zenith : forall u dt lat lon elev pressure temp refract,
  Rabs (millennia (tt_days u dt)) <= 4 -> -90 < lat < 90 -> Rabs elev <= 1000000 ->
  exists e0, let o := spa_at (Site #lat #lon #elev pressure temp refract) (spa_of_time u dt) in
    o_e0 o = #e0 /\ o_theta0 o = #(90 - e0) /\ o_e o = fadd #e0 (atmospheric_refraction_correction pressure temp #e0 refract) /\
    o_theta o = fsub #90 (o_e o).
Proof.
  intros u dt lat lon elev pr te rf Ht Hl He. destruct (spa_dir u dt lat lon elev pr te rf Ht Hl He) as (px & py & az & e0 & eot & O & A & B & C & D & E & F & G & H & _).
  exists e0. cbv zeta in *. tauto.
Qed.
Print Assumptions C108_zenith.
(** the position does not depend on the atmosphere, and a whole turn of longitude changes nothing *)
Theorem C108_atmosphere : forall w lat lon elev p t r p' t' r',
  let o := spa_at (Site lat lon elev p t r) w in let o' := spa_at (Site lat lon elev p' t' r') w in
  o_phi o = o_phi o' /\ o_e0 o = o_e0 o' /\ o_theta0 o = o_theta0 o' /\ o_eot o = o_eot o'.
Proof. intros. repeat split. Qed.
Print Assumptions C108_atmosphere.
Theorem C108_longitude : forall u dt lat lon k elev p t r, Rabs (millennia (tt_days u dt)) <= 4 ->
  spa_at (Site lat #(lon + 360 * IZR k) elev p t r) (spa_of_time u dt) = spa_at (Site lat #lon elev p t r) (spa_of_time u dt).
Proof.
  intros u dt lat lon k elev p t r H. destruct (of_time u dt H) as (v & _ & E). rewrite E. clear E. unfold spa_at. cbn [s_lat s_lon s_elev s_pressure s_temp s_refract spa_v spa_alpha spa_delta spa_r spa_jme spa_dpsi spa_epsilon].
  set (al := ra_deg _ _).
  assert (Q : local_hour_angle v #(lon + 360 * IZR k) #al = local_hour_angle v #lon #al).
  { unfold local_hour_angle. autorewrite with flfin. rewrite !fmod_fin by lra. f_equal. symmetry. destruct (Rmodp_spec (v + lon - al) 360) as (B & j & J); [lra|].
    apply mod_unique; [lra | exact B |]. exists (- k - j)%Z. rewrite minus_IZR, opp_IZR. lra. }
  rewrite Q. reflexivity.
Qed.
Print Assumptions C108_longitude.
Example C108_witness : Rabs (millennia (tt_days 1700000000 67)) <= 4.
Proof. unfold millennia, tt_days, ut_days. apply Rabs_le. lra. Qed.

(** ** C109: distance, equation of time and refraction *)
Theorem C109_distance : forall u delta_t year month, let dt := match delta_t with Some d => d | None => calculate_deltat year month end in
  nrel_earthsun_distance u delta_t year month = earth_distance (millennia (tt_days u dt)) /\
  (Rabs (millennia (tt_days u dt)) <= 4 -> 0.977 <= nrel_earthsun_distance u delta_t year month <= 1.023).
Proof.
  intros u delta_t year month dt.
  assert (E : nrel_earthsun_distance u delta_t year month = earth_distance (millennia (tt_days u dt))).
  { unfold nrel_earthsun_distance, default_deltat. fold dt. unfold spa_of_time. rewrite nutation_eq. cbn [spa_r]. rewrite hel_rad. f_equal.
    destruct (times u dt) as [_ E2]. rewrite E2. unfold julian_ephemeris_millennium, julian_ephemeris_century, millennia. field. }
  split; [exact E|]. intros H. rewrite E. apply distance_range, H.
Qed.
Print Assumptions C109_distance.
(** the published tables have these many terms *)
Theorem C109_tables : map (@List.length _) [L0_terms; L1_terms; L2_terms; L3_terms; L4_terms; L5_terms] = [64; 34; 20; 7; 3; 1]%nat
  /\ map (@List.length _) [B0_terms; B1_terms] = [5; 2]%nat /\ map (@List.length _) [R0_terms; R1_terms; R2_terms; R3_terms; R4_terms] = [40; 10; 6; 2; 1]%nat
  /\ List.length nutation_abcd = 63%nat /\ List.length nutation_yterm = 63%nat.
Proof. repeat split. Qed.
Print Assumptions C109_tables.
(** minutes; the right ascension [al] of the apparent sun in degrees, up to whole turns *)
Theorem C109_equation_of_time : forall u dt lat lon elev pressure temp refract al k, 
  let t := millennia (tt_days u dt) in let T := centuries (tt_days u dt) in Rabs t <= 4 ->
  let l := sun_longitude t T * PI / 180 in let b := sun_latitude t in let eps := SpaSpec.obliquity t T * PI / 180 in
  0 < k -> k * cos (al * PI / 180) = eq_x l b eps -> k * sin (al * PI / 180) = eq_y l b eps ->
  exists q, o_eot (spa_at (Site lat lon elev pressure temp refract) (spa_of_time u dt)) = #q /\ -1420 < q <= 20 /\
    (exists j, q = 4 * (mean_longitude t - 0.0057183 - al + nutation_longitude T * cos eps) + 1440 * IZR j) /\
    forall q' j, -20 <= q' <= 20 -> q' = 4 * (mean_longitude t - 0.0057183 - al + nutation_longitude T * cos eps) + 1440 * IZR j -> q = q'.
Proof.
  intros u dt lat lon elev pr te rf al k t T Ht l b eps K X Y. destruct (of_time u dt Ht) as (v & _ & E). rewrite E. clear E. fold t T. cbv zeta. unfold spa_at.
  cbn [o_eot s_lat s_lon s_elev s_pressure s_temp s_refract spa_v spa_alpha spa_delta spa_r spa_jme spa_dpsi spa_epsilon]. rewrite mean_lon_eq.
  change (Rrad (SpaSpec.obliquity t T)) with eps. fold b. destruct (same_angle_trig _ _ (lam_same t T)) as [LC LS].
  assert (Xe : eq_x (Rrad (spa_lam t T)) b eps = eq_x l b eps) by (unfold eq_x; rewrite LC; reflexivity).
  assert (Ye : eq_y (Rrad (spa_lam t T)) b eps = eq_y l b eps) by (unfold eq_y; rewrite LS; reflexivity).
  rewrite Xe, Ye. destruct (ra_same _ _ k al K X Y) as [i I].
  destruct (eot_fin (mean_longitude t) (ra_deg (eq_x l b eps) (eq_y l b eps)) (nutation_longitude T) (SpaSpec.obliquity t T)) as (q & j & Q & B & J).
  fold eps in J. rewrite I in J.
  assert (J' : q = 4 * (mean_longitude t - 0.0057183 - al + nutation_longitude T * cos eps) + 1440 * IZR (j - i)) by (rewrite minus_IZR; lra).
  exists q. split; [exact Q|]. split; [exact B|]. split; [exists (j - i)%Z; exact J'|].
  intros q' j' B' E'. apply (eot_unique q q' (j - i - j')%Z B B'). rewrite minus_IZR. lra.
Qed.
Print Assumptions C109_equation_of_time.
(** pressure in millibars, temperature in C; [refract] is the refraction at the horizon *)
Theorem C109_refraction : forall p t e0 refract, -273 < t -> -0.9 <= e0 <= 89.8 -> - (0.26667 + refract) <= e0 ->
  exists r, atmospheric_refraction_correction #p #t #e0 #refract = #r /\
    r = p / 1010 * (283 / (273 + t)) * 1.02 / (60 * tan ((e0 + 10.3 / (e0 + 5.11)) * PI / 180)) /\
    (0 < p -> 0 < r <= 0.65 * (p / 1010 * (283 / (273 + t)))).
Proof.
  intros p t e rf T E S. destruct (bennett_trig e E) as [S1 C1]. rewrite refr_fin by lra. rewrite Rleb_t by lra.
  change ((e + 10.3 / (e + 5.11)) * PI / 180) with (Rrad (bennett e)). pose proof (tan_bennett e E) as TB. set (tn := tan (Rrad (bennett e))) in *.
  eexists. split; [reflexivity|]. split; [ring|]. intros P. rewrite Rmult_1_r. set (k := p / 1010 * (283 / (273 + t))).
  assert (K : 0 < k). { unfold k. apply Rmult_lt_0_compat; apply Rdiv_lt_0_compat; lra. }
  assert (I : 0 < / tn <= 37.4). { split; [apply Rinv_0_lt_compat; lra|]. apply (Rmult_le_reg_l tn); [lra|]. rewrite Rinv_r by lra. nra. }
  replace (k * 1.02 / (60 * tn)) with (k * (1.02 * / tn * / 60)) by (field; lra). set (i := / tn) in *. 
  assert (0 < 1.02 * i * / 60 <= 0.65) by lra. split; [apply Rmult_lt_0_compat; lra|]. rewrite (Rmult_comm 0.65). apply Rmult_le_compat_l; lra.
Qed.
Print Assumptions C109_refraction.
(** no refraction once the centre of the sun is further below the horizon than its radius plus [refract] *)
Theorem C109_refraction_below : forall p t e0 refract, -273 < t -> e0 <> -5.11 -> sin ((e0 + 10.3 / (e0 + 5.11)) * PI / 180) <> 0 -> e0 < - (0.26667 + refract) ->
  atmospheric_refraction_correction #p #t #e0 #refract = #0.
Proof. intros p t e rf T E S B. apply refr_below; assumption. Qed.
Print Assumptions C109_refraction_below.
(** ... except at one elevation, where the masked-out quotient is not a number *)
Theorem C109_refraction_below_refuted : ~ (forall p t e0 refract, -273 < t -> e0 < - (0.26667 + refract) -> atmospheric_refraction_correction #p #t #e0 #refract = #0).
Proof.
  intros H. specialize (H 1013.25 12 (-5.11) 0.5667). rewrite refr_pole in H. discriminate H; lra.
Qed.
Print Assumptions C109_refraction_below_refuted.
(** very near the zenith the correction is negative *)
Theorem C109_refraction_positive_refuted : ~ (forall p t e0 refract r, 0 < p -> -273 < t -> 0 <= e0 <= 90 -> 0 <= refract ->
  atmospheric_refraction_correction #p #t #e0 #refract = #r -> 0 <= r).
Proof.
  intros H. pose proof PI_3141 as P.
  assert (W : 90 < bennett 90 < 91) by (unfold bennett; lra). set (w := bennett 90) in *.
  assert (S : 0 < sin (Rrad w)) by (apply sin_gt_0; unfold Rrad; nra). assert (C : cos (Rrad w) < 0) by (apply cos_lt_0; unfold Rrad; nra).
  pose proof (H 1010 10 90 0.5667) as Q. rewrite refr_fin in Q by (fold w; lra). specialize (Q _ ltac:(lra) ltac:(lra) ltac:(lra) ltac:(lra) eq_refl).
  rewrite Rleb_t in Q by lra. fold w in Q.
  assert (TN : tan (Rrad w) < 0). { unfold tan, Rdiv. assert (/ cos (Rrad w) < 0) by (apply Rinv_lt_0_compat, C). nra. }
  assert (I : / tan (Rrad w) < 0) by (apply Rinv_lt_0_compat, TN).
  replace (1010 / 1010 * (283 / (273 + 10)) * 1.02 / (60 * tan (Rrad w)) * 1) with (1.02 / 60 * / tan (Rrad w)) in Q by (field; lra). lra.
Qed.
Print Assumptions C109_refraction_positive_refuted.

(** ** C110: the threaded calculation *)
(** whatever the order in which the threads' writes reach memory, and whatever the memory held, the result is the one of the array version *)
Theorem C110_schedule : forall mode s samples numthreads schedule mem r c,
  interleaving (numba_threads mode s samples numthreads) schedule -> (r < spa_dims mode)%nat -> (c < List.length samples)%nat ->
  run mem schedule r c = nth r (nth c (solar_position_numpy mode s samples) []) NaN.
Proof.
  intros mode s samples n sch mem r c I R C. change (run mem sch r c = numpy_cell mode s samples r c). apply run_last.
  - intros w W <- <-. apply (inter_in _ _ I) in W. apply writes_correct in W. tauto.
  - destruct (writes_cover mode s samples n r c R C) as (w & W & E). exists w. split; [apply (inter_in _ _ I), W | exact E].
Qed.
Print Assumptions C110_schedule.
(** no cell is written twice and none outside the result is written, so the threads need no lock *)
Theorem C110_race_free : forall mode s samples numthreads,
  NoDup (map (fun w => (w_row w, w_col w)) (List.concat (numba_threads mode s samples numthreads))) /\
  forall w, In w (List.concat (numba_threads mode s samples numthreads)) -> (w_row w < spa_dims mode)%nat /\ (w_col w < List.length samples)%nat.
Proof.
  intros mode s samples n. split; [apply threads_once|]. intros w W. apply writes_correct in W. tauto.
Qed.
Print Assumptions C110_race_free.
(** the work is cut into as many nearly equal pieces as there are threads *)
Theorem C110_even_split : forall (l : list (R * R)) k, (0 < k)%nat -> even_split k l (map snd (array_split l k)).
Proof.
  intros l k K. unfold even_split, array_split. destruct (split_at_spec (split_sizes (List.length l) k) 0%nat l (sizes_sum _ _ K)) as [C L].
  split; [rewrite map_length, <- (map_length (fun c => List.length (snd c))), L; apply sizes_length, K|]. split; [exact C|].
  intros p q P Q. apply (sizes_near (List.length l) k); rewrite <- L; apply in_map_iff.
  - apply in_map_iff in P. destruct P as (x & <- & X). exists x. split; [reflexivity | exact X].
  - apply in_map_iff in Q. destruct Q as (x & <- & X). exists x. split; [reflexivity | exact X].
Qed.
Print Assumptions C110_even_split.
Theorem C110_thread_count : forall mode s samples numthreads, List.length (numba_threads mode s samples numthreads) = Nat.max 1 (Nat.min numthreads (List.length samples)).
Proof.
  intros mode s samples n. rewrite threads_chunks, map_length. unfold chunks. destruct (Nat.ltb_spec (List.length samples) n) as [L|L].
  - destruct (Nat.leb_spec (List.length samples) 1) as [K|K]; [cbn [List.length]; lia|]. destruct (C110_even_split samples (List.length samples)) as [E _]; [lia|]. rewrite map_length in E. rewrite E. lia.
  - destruct (Nat.leb_spec n 1) as [K|K]; [cbn [List.length]; lia|]. destruct (C110_even_split samples n) as [E _]; [lia|]. rewrite map_length in E. rewrite E. lia.
Qed.
Print Assumptions C110_thread_count.
(** schedules exist: running the threads one after the other is one *)
Example C110_witness : forall mode s samples n, interleaving (numba_threads mode s samples n) (List.concat (numba_threads mode s samples n)).
Proof. intros. apply inter_seq. Qed.

(** ** C111: time scales *)
Theorem C111_deltat : forall year month, calculate_deltat year month = deltat_piece year (IZR year + (month - 0.5) / 12).
Proof. exact deltat_eq. Qed.
Print Assumptions C111_deltat.
(** between 2005 and 2050 the estimate grows from month to month and stays within 64 and 94 seconds *)
Theorem C111_deltat_recent : forall year month, (2005 <= year < 2050)%Z -> 1 <= month <= 12 ->
  64 <= calculate_deltat year month <= 94 /\ forall year' month', (year <= year' < 2050)%Z -> 1 <= month' <= 12 -> IZR year + month / 12 <= IZR year' + month' / 12 ->
  calculate_deltat year month <= calculate_deltat year' month'.
Proof.
  assert (P : forall year month, (2005 <= year < 2050)%Z -> calculate_deltat year month = let x := IZR year + (month - 0.5) / 12 - 2000 in 62.92 + 0.32217 * x + 0.005589 * x ^ 2).
  { intros year month Y. rewrite deltat_eq. unfold deltat_piece.
    repeat match goal with |- context [(year <? ?k)%Z] => first [replace (year <? k)%Z with true by (symmetry; apply Z.ltb_lt; lia) | replace (year <? k)%Z with false by (symmetry; apply Z.ltb_ge; lia)] end.
    unfold poly. cbn [fold_right]. cbv zeta. set (x := IZR year + (month - 0.5) / 12 - 2000). ring. }
  intros year month Y M. rewrite (P year month Y). cbv zeta.
  assert (B : 5 <= IZR year - 2000 <= 49). { destruct Y as [Y1 Y2]. assert (Y3 : (year <= 2049)%Z) by lia. apply IZR_le in Y1, Y3. lra. }
  set (x := IZR year + (month - 0.5) / 12 - 2000). assert (X : 5 <= x <= 50) by (unfold x; lra). split.
  - assert (25 <= x ^ 2 <= 2500) by nra. lra.
  - intros year' month' Y' M' L. rewrite (P year' month') by lia. cbv zeta. set (x' := IZR year' + (month' - 0.5) / 12 - 2000).
    assert (x <= x') by (unfold x, x'; lra). assert (x ^ 2 <= x' ^ 2) by nra. lra.
Qed.
Print Assumptions C111_deltat_recent.
(** the Julian day of a Gregorian date and time; day 1 is 1 January of year 1 *)
Theorem C111_julian_day : forall year month day hour minute second microsecond,
  (1583 <= year)%Z -> (1 <= month <= 12)%Z -> (1 <= day <= 31)%Z -> (0 <= hour)%Z -> (0 <= minute)%Z -> (0 <= second)%Z -> (0 <= microsecond)%Z ->
  let seconds := IZR (hour * 3600 + minute * 60 + second) + IZR microsecond / 1000000 in
  julian_day_dt year month day hour minute second microsecond = IZR (gregorian_date year month day) + 1721424.5 + seconds / 86400 /\
  julian_day_dt year month day hour minute second microsecond
    = julian_day (86400 * IZR (gregorian_date year month day - gregorian_date 1970 1 1) + seconds).
Proof.
  intros year month day hour minute second us Y M D H MI S U seconds.
  assert (E : IZR us / 1e6 + IZR (second + minute * 60 + hour * 3600) = seconds).
  { unfold seconds. replace 1e6 with 1000000 by lra. replace (second + minute * 60 + hour * 3600)%Z with (hour * 3600 + minute * 60 + second)%Z by ring. ring. }
  assert (P : 0 <= seconds). { unfold seconds. assert (0 <= IZR (hour * 3600 + minute * 60 + second)) by (apply IZR_le; lia). apply IZR_le in U. unfold Rdiv. lra. }
  rewrite jdt_gregorian by (try lia; rewrite E; exact P). rewrite E. split; [reflexivity|]. unfold julian_day. rewrite minus_IZR.
  replace (IZR (gregorian_date 1970 1 1)) with 719163 by reflexivity. lra.
Qed.
Print Assumptions C111_julian_day.
Example C111_witness : gregorian_date 2024 2 29 = 738945%Z. Proof. reflexivity. Qed.

(** ** C112: rise, set and transit *)
Theorem C112_errors : forall dates lat lon e, transit_sunrise_sunset dates lat lon = Err e <->
  e = ValueError /\ exists d, In d dates /\ forall k : Z, fst d <> 86400 * IZR k.
Proof.
  intros dates lat lon e. unfold transit_sunrise_sunset. destruct (existsb (fun d => negb (Reqb (Rmodp (fst d) 86400) 0)) dates) eqn:X.
  - split; [|intros [-> _]; reflexivity]. intros H. injection H as <-. split; [reflexivity|]. apply existsb_exists in X. destruct X as (d & I & N). exists d. split; [exact I|].
    intros k K. apply negb_true_iff, Reqb_false in N. apply N. symmetry. apply mod_unique; [lra|lra|]. exists (- k)%Z. rewrite opp_IZR. lra.
  - split; [discriminate|]. intros [_ (d & I & N)]. exfalso. apply not_true_iff_false in X. apply X. apply existsb_exists. exists d. split; [exact I|].
    apply negb_true_iff, Reqb_false. intros Z. destruct (Rmodp_spec (fst d) 86400) as (_ & k & K); [lra|]. apply (N k). lra.
Qed.
Print Assumptions C112_errors.
(** each date has its own result *)
Theorem C112_elementwise : forall dates lat lon out, transit_sunrise_sunset dates lat lon = Ok out ->
  List.length out = List.length dates /\ forall i d o, nth_error dates i = Some d -> nth_error out i = Some o -> transit_sunrise_sunset [d] lat lon = Ok [o].
Proof.
  intros dates lat lon out. unfold transit_sunrise_sunset. destruct (existsb (fun d => negb (Reqb (Rmodp (fst d) 86400) 0)) dates) eqn:X; [discriminate|]. intros H.
  assert (E : out = map (fun d => srs_day spa_sst lat lon (fst d) (snd d)) dates) by congruence. clear H. subst out. split; [apply map_length|]. intros i d o D O.
  rewrite nth_error_map, D in O. cbn [option_map] in O. assert (E : o = srs_day spa_sst lat lon (fst d) (snd d)) by congruence. subst o.
  cbn [existsb map]. assert (N : negb (Reqb (Rmodp (fst d) 86400) 0) = false).
  { apply not_true_iff_false. intros T. apply not_true_iff_false in X. apply X. apply existsb_exists. exists d. split; [apply (nth_error_In _ _ D) | exact T]. }
  rewrite N. reflexivity.
Qed.
Print Assumptions C112_elementwise.
(** one date: [v] sidereal time at Greenwich at 0h UT, ([a0],[d0]), ([am],[dm]), ([ap],[dp]) the sun at 0h TT of the day, the day before and the day after *)
Theorem C112_day : forall (j : Z) dt lat lon, let day := 86400 * IZR j in Rabs (millennia (ut_days day)) <= 3.9 -> Rabs dt <= 1000000 -> -90 < lat < 90 ->
  exists v a0 d0 am dm ap dp A B A' B' tr r s,
    same_angle v (sidereal_time (ut_days day) (millennia (tt_days day dt)) (centuries (tt_days day dt))) /\
    equatorial (day - dt) dt a0 d0 /\ equatorial (day - dt - 86400) dt am dm /\ equatorial (day - dt + 86400) dt ap dp /\
    limited (a0 - am) A /\ limited (ap - a0) B /\ limited (d0 - dm) A' /\ limited (dp - d0) B' /\
    let ra m := through3 (a0 - A) a0 (a0 + B) (m + dt / 86400) in
    let dec m := through3 (d0 - A') d0 (d0 + B') (m + dt / 86400) in
    let hour_angle m ha := -180 <= ha < 180 /\ same_angle ha (v + 360.985647 * m + lon - ra m) in
    let high h := sun_up (lat * PI / 180) (d0 * PI / 180) (h * PI / 180) in
    transit_sunrise_sunset [(day, dt)] #lat #lon = Ok [(#tr, r, s)] /\
    forall m, 0 <= m < 1 -> same_fraction m ((a0 - lon - v) / 360) ->
    (forall ha, hour_angle m ha -> tr = day + 86400 * (m - ha / 360)) /\
    ((forall h, high h <> sin (-0.8333 * PI / 180)) -> r = NaN /\ s = NaN) /\
    (forall h0, 0 <= h0 < 180 -> high h0 = sin (-0.8333 * PI / 180) ->
      (forall w ha, 0 <= w < 1 -> same_fraction w (m - h0 / 360) -> hour_angle w ha -> cos (dec w * PI / 180) * sin (ha * PI / 180) <> 0 ->
         r = #(day + 86400 * (m - h0 / 360 + refinement lat (dec w) ha))) /\
      (forall w ha, 0 <= w < 1 -> same_fraction w (m + h0 / 360) -> hour_angle w ha -> cos (dec w * PI / 180) * sin (ha * PI / 180) <> 0 ->
         s = #(day + 86400 * (m + h0 / 360 + refinement lat (dec w) ha)))).
Proof.
  intros j dt lat lon day Hd Hdt Hlat.
  assert (B1 : Rabs (millennia (tt_days day dt)) <= 4) by (apply mill_bound; [exact Hd | lra]).
  assert (B2 : Rabs (millennia (tt_days (day - dt) dt)) <= 4). { rewrite tt_shift. lra. }
  assert (B3 : Rabs (millennia (tt_days (day - dt - 86400) dt)) <= 4).
  { replace (day - dt - 86400) with (day + -86400 - dt) by ring. rewrite tt_shift. apply mill_bound; [exact Hd | apply Rabs_le; lra]. }
  assert (B4 : Rabs (millennia (tt_days (day - dt + 86400) dt)) <= 4).
  { replace (day - dt + 86400) with (day + 86400 - dt) by ring. rewrite tt_shift. apply mill_bound; [exact Hd | apply Rabs_le; lra]. }
  destruct (sst_fin _ _ B1) as (v & x1 & x2 & S0 & V & _). destruct (sst_fin _ _ B2) as (x3 & a0 & d0 & S1 & _ & E0).
  destruct (sst_fin _ _ B3) as (x4 & am & dm & S2 & _ & Em). destruct (sst_fin _ _ B4) as (x5 & ap & dp & S3 & _ & Ep).
  pose proof PI_3141 as PP. assert (Cl : 0 < cos (Rrad lat)) by (apply cos_gt_0; unfold Rrad; nra).
  assert (Cd : 0 < cos (Rrad d0)). { destruct E0 as (_ & _ & _ & _ & D). apply cos_gt_0; unfold Rrad; nra. }
  destruct (srs_transit spa_sst lat lon day dt v a0 d0 am dm ap dp _ _ _ _ _ (ex_intro _ j eq_refl) S0 S1 S2 S3 Cl Cd) as (r & s & E & N & F).
  exists v, a0, d0, am, dm, ap, dp, (rwrap (a0 - am)), (rwrap (ap - a0)), (rwrap (d0 - dm)), (rwrap (dp - d0)). eexists. exists r, s.
  split; [exact V|]. split; [exact E0|]. split; [exact Em|]. split; [exact Ep|]. split; [apply rwrap_limited|]. split; [apply rwrap_limited|]. split; [apply rwrap_limited|]. split; [apply rwrap_limited|].
  cbv zeta. split.
  { unfold transit_sunrise_sunset. cbn [existsb fst snd map].
    assert (Z : Rmodp day 86400 = 0). { symmetry. apply mod_unique; [lra|lra|]. exists (- j)%Z. rewrite opp_IZR. unfold day. ring. }
    rewrite Z. replace (Reqb 0 0) with true by (symmetry; apply Reqb_true; reflexivity). cbn [negb orb]. rewrite E. reflexivity. }
  intros m M SF. assert (EM : m = Rmodp ((a0 - lon - v) / 360) 1) by (apply mod_unique; [lra | exact M |]; destruct SF as [k K]; exists k; lra).
  rewrite <- EM in *. cbv zeta in F.
  set (ra := fun m => through3 (a0 - rwrap (a0 - am)) a0 (a0 + rwrap (ap - a0)) (m + dt / 86400)) in *.
  set (dec := fun m => through3 (d0 - rwrap (d0 - dm)) d0 (d0 + rwrap (dp - d0)) (m + dt / 86400)) in *.
  assert (HU : forall w ha, -180 <= ha < 180 /\ same_angle ha (v + 360.985647 * w + lon - ra w) ->
     (if Rleb 180 (Rmodp (v + 360.985647 * w + lon - ra w) 360) then Rmodp (v + 360.985647 * w + lon - ra w) 360 - 360 else Rmodp (v + 360.985647 * w + lon - ra w) 360) = ha).
  { intros w ha [H1 H2]. symmetry. apply (ha_unique _ _ H1 H2). }
  set (arg := (sin (Rrad (-0.8333)) - sin (Rrad lat) * sin (Rrad d0)) / (cos (Rrad lat) * cos (Rrad d0))) in *.
  split; [|split].
  - intros ha H. pose proof (HU m ha H) as Q. unfold ra in Q. cbv zeta. rewrite Q. reflexivity.
  - intros H. apply N. apply Rnot_le_lt. intros C. apply (H (Rdeg (acos arg))). change (Rdeg (acos arg) * PI / 180) with (Rrad (Rdeg (acos arg))). rewrite Rrad_deg. unfold sun_up.
    apply Rabs_le_inv in C. rewrite cos_acos by lra. change (lat * PI / 180) with (Rrad lat). change (d0 * PI / 180) with (Rrad d0). change (-0.8333 * PI / 180) with (Rrad (-0.8333)). unfold arg. field. lra.
  - intros h0 H0 HH. change (lat * PI / 180) with (Rrad lat) in HH. change (d0 * PI / 180) with (Rrad d0) in HH. change (-0.8333 * PI / 180) with (Rrad (-0.8333)) in HH. change (h0 * PI / 180) with (Rrad h0) in HH.
    assert (CA : cos (Rrad h0) = arg). { unfold arg. rewrite <- HH. unfold sun_up. field. lra. }
    assert (RH : 0 <= Rrad h0 <= PI) by (unfold Rrad; nra).
    assert (AC : Rdeg (acos arg) = h0). { rewrite <- CA, acos_cos by exact RH. apply Rdeg_rad. }
    assert (AB : Rabs arg <= 1) by (rewrite <- CA; apply Rabs_le, COS_bound). destruct (F AB) as [F1 F2]. rewrite AC in F1, F2.
    assert (M0 : Rmodp h0 180 = h0) by (symmetry; apply mod_unique; [lra | exact H0 | exists 0%Z; ring]). rewrite M0 in F1, F2.
    split; intros w ha W SW HA NZ.
    + assert (EW : w = Rmodp (m - h0 / 360) 1) by (apply mod_unique; [lra | exact W |]; destruct SW as [k K]; exists k; lra). rewrite <- EW in F1.
      fold (ra w) (dec w) in F1. rewrite (HU w ha HA) in F1. apply F1. exact NZ.
    + assert (EW : w = Rmodp (m + h0 / 360) 1) by (apply mod_unique; [lra | exact W |]; destruct SW as [k K]; exists k; lra). rewrite <- EW in F2.
      fold (ra w) (dec w) in F2. rewrite (HU w ha HA) in F2. apply F2. exact NZ.
Qed.
Print Assumptions C112_day.
(** the wrapper works on the calendar day of the local clock, and never fails on localized times *)
Theorem C112_local_day : forall z t lat lon delta_t year month, let D := (wall z t / ns_per_day)%Z in
  let dt := match delta_t with Some d => d | None => calculate_deltat year month end in
  exists tr r s, transit_sunrise_sunset [(86400 * IZR D, dt)] lat lon = Ok [(tr, r, s)] /\
    sun_rise_set_transit_spa (Some z) t lat lon delta_t year month = Ok ((r * #1e9)%fl, (s * #1e9)%fl, (tr * #1e9)%fl).
Proof.
  intros z t lat lon delta_t year month D dt. unfold sun_rise_set_transit_spa, default_deltat. fold dt.
  replace (IZR (wall_midnight z t) / 1000000000) with (86400 * IZR D) by (rewrite wall_midnight_days; fold D; rewrite mult_IZR; replace (IZR ns_per_day) with 86400000000000 by reflexivity; field).
  unfold transit_sunrise_sunset. cbn [existsb fst snd map].
  assert (Z : Rmodp (86400 * IZR D) 86400 = 0). { symmetry. apply mod_unique; [lra|lra|]. exists (- D)%Z. rewrite opp_IZR. ring. }
  rewrite Z. replace (Reqb 0 0) with true by (symmetry; apply Reqb_true; reflexivity). cbn [negb orb bind].
  destruct (srs_day spa_sst lat lon (86400 * IZR D) dt) as [[tr r] s]. exists tr, r, s. split; reflexivity.
Qed.
Print Assumptions C112_local_day.
Theorem C112_naive : forall t lat lon delta_t year month, sun_rise_set_transit_spa None t lat lon delta_t year month = Err ValueError.
Proof. reflexivity. Qed.
Print Assumptions C112_naive.

(** ** C113: wrappers *)
(** after a successful import the functions are compiled exactly when asked, provided numba can be imported *)
Theorem C113_import : forall numba how st, 
  (spa_python_import numba how st = Err ValueError <-> how <> "numba"%string /\ how <> "numpy"%string) /\
  (forall e, spa_python_import numba how st = Err e -> e = ValueError) /\
  (forall st', spa_python_import numba how st = Ok st' -> 
     (how = "numpy"%string -> module_numba st' = false) /\ (how = "numba"%string -> module_numba st' = (module_numba st || numba)%bool)).
Proof.
  intros numba how [env m]. unfold spa_python_import. cbn [module_numba].
  destruct (String.eqb_spec how "numpy") as [E1|E1]; [|destruct (String.eqb_spec how "numba") as [E2|E2]].
  - subst how. cbn [String.eqb Ascii.eqb Bool.eqb andb negb]. destruct m; cbn [andb negb]; (split; [split; [discriminate | tauto]|]; split; [discriminate|]);
    intros st' E; apply Ok_inj in E; subst st'; (split; [reflexivity | discriminate]).
  - subst how. cbn [String.eqb Ascii.eqb Bool.eqb andb negb]. destruct m; cbn [andb negb orb]; (split; [split; [discriminate | tauto]|]; split; [discriminate|]);
    intros st' E; apply Ok_inj in E; subst st'; (split; [discriminate | intros _; destruct numba; reflexivity]).
  - cbn [andb negb]. split; [tauto|]. split; [intros e E; injection E; auto | discriminate].
Qed.
Print Assumptions C113_import.
(** no matter the history of calls, a process without numba keeps the uncompiled functions *)
Theorem C113_without_numba : forall calls st, module_numba st = false ->
  forall st', fold_left (fun acc how => match acc with Ok s => spa_python_import false how s | Err e => Err e end) calls (Ok st) = Ok st' -> module_numba st' = false.
Proof.
  induction calls as [|how calls IH]; intros st M st' E; cbn [fold_left] in E.
  - apply Ok_inj in E. subst st'. exact M.
  - destruct (spa_python_import false how st) as [s|e] eqn:S.
    + apply (IH s); [|exact E]. destruct (C113_import false how st) as (_ & _ & H). specialize (H s S).
      destruct (String.eqb_spec how "numpy") as [E1|E1]; [apply H, E1|]. destruct (String.eqb_spec how "numba") as [E2|E2]; [rewrite (proj2 H E2), M; reflexivity|].
      exfalso. destruct (C113_import false how st) as ([_ F] & _). rewrite (F (conj E2 E1)) in S. discriminate.
    + exfalso. clear -E. induction calls as [|h c IHc]; cbn in E; [discriminate | apply IHc, E].
Qed.
Print Assumptions C113_without_numba.
(** switching deletes the PVLIB_USE_NUMBA setting of the user's environment *)
Theorem C113_environment_refuted : ~ (forall numba how st st', spa_python_import numba how st = Ok st' -> env_use_numba st' = env_use_numba st).
Proof. intros H. specialize (H true "numpy"%string (PyState (Some "1"%string) true) _ eq_refl). discriminate H. Qed.
Print Assumptions C113_environment_refuted.
(** spa_python: pressure in Pa; no delta_t means the estimate for the UTC month *)
Theorem C113_spa_python : forall u lat lon alt p temp delta_t refract year month, let dt := match delta_t with Some d => d | None => calculate_deltat year month end in
  Rabs (millennia (tt_days u dt)) <= 4 -> -90 < lat < 90 -> Rabs alt <= 1000000 -> -273 < temp -> 0 < refract ->
  exists px py az e0, observer (lat * PI / 180) alt px py /\ spa_pointing u dt lat lon px py az e0 /\ 0 <= az < 360 /\ -90 <= e0 <= 90 /\
    let f := spa_python_at #lat #lon #alt #p #temp delta_t (Some #refract) u year month in
    f_azimuth f = #az /\ f_elevation f = #e0 /\ f_zenith f = #(90 - e0) /\ f_apparent_zenith f = fsub #90 (f_apparent_elevation f) /\
    (- (0.26667 + refract) <= e0 -> -0.9 <= e0 <= 89.8 ->
       f_apparent_elevation f = #(e0 + p / 101000 * (283 / (273 + temp)) * 1.02 / (60 * tan ((e0 + 10.3 / (e0 + 5.11)) * PI / 180)))).
Proof.
  intros u lat lon alt p temp delta_t rf year month dt Ht Hl Ha HT HR.
  destruct (spa_dir u dt lat lon alt #(p / 100) #temp #rf Ht Hl Ha) as (px & py & az & e0 & eot & O & A & B & C & D & E & F & G & H & P).
  exists px, py, az, e0. split; [exact O|]. split; [exact P|]. split; [exact B|]. split; [exact D|]. cbv zeta in *.
  assert (Q : spa_python_at #lat #lon #alt #p #temp delta_t (Some #rf) u year month =
    let o := spa_at (Site #lat #lon #alt #(p / 100) #temp #rf) (spa_of_time u dt) in SpaFrame (o_theta o) (o_theta0 o) (o_e o) (o_e0 o) (o_phi o) (o_eot o)).
  { unfold spa_python_at, spa_python_site, default_deltat. fold dt. rewrite feqb_fin. replace (Reqb rf 0) with false by (symmetry; apply Reqb_false; lra). rewrite fdiv_fin by lra. reflexivity. }
  rewrite Q. cbv zeta. cbn [f_azimuth f_elevation f_zenith f_apparent_zenith f_apparent_elevation].
  split; [exact A|]. split; [exact C|]. split; [exact E|]. split; [exact H|]. intros S1 S2. rewrite G.
  destruct (C109_refraction (p / 100) temp e0 rf HT S2 S1) as (r & R1 & R2 & _). rewrite R1, fadd_fin, R2. f_equal. f_equal. f_equal. f_equal. f_equal. field.
Qed.
Print Assumptions C113_spa_python.
(** no refraction and refraction 0 at the horizon both mean the default *)
Theorem C113_refract_default : forall lat lon alt p temp, spa_python_site lat lon alt p temp None = spa_python_site lat lon alt p temp (Some #0.5667)
  /\ spa_python_site lat lon alt p temp (Some #0) = spa_python_site lat lon alt p temp (Some #0.5667).
Proof.
  intros. unfold spa_python_site. rewrite !feqb_fin. replace (Reqb 0 0) with true by (symmetry; apply Reqb_true; reflexivity).
  replace (Reqb 0.5667 0) with false by (symmetry; apply Reqb_false; lra). split; reflexivity.
Qed.
Print Assumptions C113_refract_default.
