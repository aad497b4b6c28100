(** Proofs about snow and soiling. *)
From Verif Require Import Base.Fl Base.FlFacts Base.Py Base.Series Model.Snow Model.Soiling Spec.SeriesSpec
  Proofs.Slope Proofs.Invert.
From Coq Require Import Arith.
Open Scope R_scope.

(** ** zip_with on maps *)
Lemma zip_map {X A B C} (f : A -> B -> C) (a : X -> A) (b : X -> B) l :
  zip_with f (map a l) (map b l) = map (fun x => f (a x) (b x)) l.
Proof. induction l as [|x l IH]; simpl; [reflexivity|]. f_equal. exact IH. Qed.
Lemma combine_map {X A B} (a : X -> A) (b : X -> B) l :
  combine (map a l) (map b l) = map (fun x => (a x, b x)) l.
Proof. induction l as [|x l IH]; simpl; [reflexivity|]. f_equal. exact IH. Qed.

(** ** snow *)
Fixpoint pairs {X} (t : X -> R) (p : R) (l : list X) : list (R * X) :=
  match l with [] => [] | x :: l' => (p, x) :: pairs t (t x) l' end.
Lemma pairs_snd {X} (t : X -> R) p l : map snd (pairs t p l) = l.
Proof. revert p. induction l as [|x l IH]; intros p; simpl; [reflexivity|]. f_equal. apply IH. Qed.
Lemma pairs_diffs {X} (t : X -> R) p l :
  diffs_from p (map t l) = map (fun x => t (snd x) - fst x) (pairs t p l).
Proof. revert p. induction l as [|x l IH]; intros p; simpl; [reflexivity|]. f_equal. apply IH. Qed.
Lemma map_pairs {X Y} (t : X -> R) (f : X -> Y) p l : map f l = map (fun x => f (snd x)) (pairs t p l).
Proof. rewrite <- (pairs_snd t p l) at 1. apply map_map. Qed.

Lemma sum_group_app id h1 h2 : sum_of_group id (h1 ++ h2) = sum_of_group id h1 + sum_of_group id h2.
Proof.
  unfold sum_of_group. induction h1 as [|r h1 IH]; simpl; [ring|].
  destruct (Nat.eqb (fst r) id); simpl; rewrite IH; ring.
Qed.
Lemma sum_group_one id k s : sum_of_group id [(k, s)] = if Nat.eqb k id then s else 0.
Proof. unfold sum_of_group. simpl. destruct (Nat.eqb k id); simpl; ring. Qed.
Lemma sum_group_fresh k h : (forall r, In r h -> (fst r <= k)%nat) -> sum_of_group (S k) h = 0.
Proof.
  unfold sum_of_group. induction h as [|r h IH]; intros H; simpl; [reflexivity|].
  destruct (Nat.eqb_spec (fst r) (S k)) as [E|E].
  - specialize (H r (or_introl eq_refl)). lia.
  - apply IH. intros r' Hr'. apply H. right; exact Hr'.
Qed.

Lemma snow_inv : forall news slides k hist l p,
  length news = length slides -> Forall (fun s => 0 <= s) slides ->
  Forall2 (fun (b : bool) s => b = true -> s = 0) news slides ->
  (forall r, In r hist -> (fst r <= k)%nat) ->
  p = Rmax (l - sum_of_group k hist) 0 ->
  zip_with (fun c s => Rmax ((match c with Some x => x | None => 0 end) - s) 0)
    (ffill_from (Some l) (map (fun b : bool => if b then Some 1 else None) news))
    (group_cumsum_from hist (combine (cumcount_from k news) slides))
  = snow_recurrence p (combine news slides).
Proof.
  induction news as [|b news IH]; intros slides k hist l p Hlen Hpos Hz Hh Hp; [reflexivity|].
  destruct slides as [|s slides]; [discriminate Hlen|].
  inversion Hpos as [|? ? Hs Hpos']; subst. inversion Hz as [|? ? ? ? Hb Hz']; subst.
  injection Hlen as Hlen.
  cbn [map ffill_from cumcount_from combine group_cumsum_from zip_with snow_recurrence fst].
  destruct b.
  - assert (Es : s = 0) by (apply Hb; reflexivity). subst s.
    assert (E : sum_of_group (S k) (hist ++ [(S k, 0)]) = 0)
      by (rewrite sum_group_app, sum_group_fresh, sum_group_one, Nat.eqb_refl by exact Hh; ring).
    rewrite E. f_equal; [rmm; lra|].
    apply IH; auto.
    + intros r Hr. apply in_app_or in Hr. destruct Hr as [Hr|[<-|[]]]; [specialize (Hh r Hr); lia|simpl; lia].
    + rewrite E. rmm; lra.
  - assert (E : sum_of_group k (hist ++ [(k, s)]) = sum_of_group k hist + s)
      by (rewrite sum_group_app, sum_group_one, Nat.eqb_refl; ring).
    rewrite E. f_equal; [rmm; lra|].
    apply IH; auto.
    + intros r Hr. apply in_app_or in Hr. destruct Hr as [Hr|[<-|[]]]; [apply Hh, Hr|simpl; lia].
    + rewrite E. rmm; lra.
Qed.

Definition depths (use_depth : bool) (rows : list weather) : option (list fl) :=
  if use_depth then Some (map w_depth rows) else None.

Section SnowMain.
  Variables (use_depth : bool) (thr_snow thr_depth cs_coef : fl) (slide_per_hour : R).
  Let srows := snow_rows_after use_depth thr_snow thr_depth cs_coef slide_per_hour.
  Definition rnew (x : R * weather) : bool :=
    new_snow use_depth thr_snow thr_depth (fdiv (w_snow (snd x)) (Fin (w_time (snd x) - fst x))) (snd x).
  Definition rslide (x : R * weather) : R :=
    if bare use_depth thr_depth (snd x) then 1 else if rnew x then 0
    else if slides cs_coef (snd x) then slide_per_hour * (w_time (snd x) - fst x) else 0.
  Lemma srows_pairs p l : srows p l = map (fun x => (rnew x, rslide x)) (pairs w_time p l).
  Proof. revert p. induction l as [|w l IH]; intros p; simpl; [reflexivity|]. f_equal. apply IH. Qed.
  Lemma rnew_slide x : rnew x = true -> rslide x = 0.
  Proof.
    intros H. unfold rslide. rewrite H. unfold rnew, new_snow, deep in H. apply andb_prop in H as [_ H].
    unfold bare. destruct use_depth; simpl in *; [|reflexivity].
    destruct (fltb _ _) eqn:E; [|reflexivity].
    destruct thr_depth, (w_depth (snd x)); simpl in *; try discriminate.
    apply Rltb_true in E. apply Rleb_true in H. lra.
  Qed.
End SnowMain.

Fixpoint increasing_from (p : R) (l : list R) : Prop :=
  match l with [] => True | x :: l' => p < x /\ increasing_from x l' end.
Definition increasing (l : list R) : Prop := match l with [] => True | x :: l' => increasing_from x l' end.

Lemma pairs_increasing {X} (t : X -> R) p l : increasing_from p (map t l) ->
  Forall (fun x => fst x < t (snd x)) (pairs t p l).
Proof.
  revert p. induction l as [|x l IH]; intros p H; simpl; [constructor|].
  simpl in H. constructor; [apply H|apply IH, H].
Qed.
Lemma Forall2_map {X A B} (P : A -> B -> Prop) (a : X -> A) (b : X -> B) l :
  (forall x, P (a x) (b x)) -> Forall2 P (map a l) (map b l).
Proof. intros H. induction l; simpl; constructor; auto. Qed.

Theorem coverage_is_recurrence ud ts td cs coef tilt init freq rows :
  (3 <= length rows)%nat -> increasing (map w_time rows) -> 0 <= coef * sinD tilt ->
  coverage_nrel (map w_time rows) (map w_snow rows) (map w_poa rows) (map w_temp rows) tilt (depths ud rows)
    init ts td cs coef freq
  = Ok (snow_recurrence init (snow_rows ud ts td cs (coef * sinD tilt) freq rows)).
Proof.
  intros Hlen Hinc Hpos. destruct rows as [|w0 rows]; [simpl in Hlen; lia|].
  unfold coverage_nrel, fully_covered_nrel. rewrite map_length.
  destruct (Nat.ltb_spec (length (w0 :: rows)) 3); [lia|]. cbn [bind]. f_equal.
  simpl in Hinc. clear Hlen H.
  set (t0 := w_time w0) in *.
  set (rate0 := match freq with Some h => fdiv (w_snow w0) (Fin h) | None => Fin 0 end).
  set (new0 := new_snow ud ts td rate0 w0).
  set (P := pairs w_time t0 rows).
  set (k := coef * sinD tilt) in *.
  assert (EN : (match depths ud (w0 :: rows) with
     | Some d => zip_with andb (map (fun r => fgtb r ts) (hourly_snow_rate (map w_time (w0 :: rows)) (map w_snow (w0 :: rows)) freq))
                   (map (fun x => fgeb x td) d)
     | None => map (fun r => fgtb r ts) (hourly_snow_rate (map w_time (w0 :: rows)) (map w_snow (w0 :: rows)) freq)
     end) = new0 :: map (rnew ud ts td) P).
  { assert (ER : hourly_snow_rate (map w_time (w0 :: rows)) (map w_snow (w0 :: rows)) freq =
                 rate0 :: map (fun x => fdiv (w_snow (snd x)) (Fin (w_time (snd x) - fst x))) P).
    { unfold hourly_snow_rate. cbn [map series_diff zip_with].
      fold t0. rewrite pairs_diffs, map_map, (map_pairs w_time w_snow t0 rows). fold P. rewrite zip_map.
      unfold rate0. destruct freq; reflexivity. }
    rewrite ER. unfold depths. destruct ud; cbn [map zip_with].
    - rewrite map_map, (map_pairs w_time w_depth t0 rows). fold P. rewrite map_map, zip_map. reflexivity.
    - rewrite map_map. unfold new0, new_snow, deep. cbn [negb orb]. rewrite andb_true_r. f_equal.
      apply map_ext. intros x. unfold rnew, new_snow, deep. cbn [negb orb]. rewrite andb_true_r. reflexivity. }
  rewrite EN. clear EN.
  set (slide0 := if bare ud td w0 then 1 else 0).
  match goal with |- context [group_cumsum _ ?s] => assert (ES : s = slide0 :: map (rslide ud ts td cs k) P) end.
  { cbn [map zip_with series_diff assign_mask set_first].
    fold t0. rewrite pairs_diffs, map_map, (map_pairs w_time w_temp t0 rows), (map_pairs w_time w_poa t0 rows).
    fold P. rewrite zip_map, !map_map. unfold assign_mask. cbn [zip_with set_first map].
    rewrite zip_map, zip_map. unfold depths, slide0.
    assert (EB : forall x, In x P -> True) by auto.
    destruct ud; cbn [map zip_with].
    - rewrite (map_pairs w_time w_depth t0 rows). fold P. rewrite map_map, zip_map. f_equal.
      apply map_ext. intros x. unfold rslide, bare, slides. cbn [andb]. unfold fgtb.
      destruct (fltb (w_depth (snd x)) td); [reflexivity|]. destruct (rnew true ts td x); [reflexivity|].
      destruct (fltb (w_poa (snd x) / cs)%fl (w_temp (snd x))); cbn [negb]; [|reflexivity]. unfold k; ring.
    - f_equal. apply map_ext. intros x. unfold rslide, bare, slides. cbn [andb]. unfold fgtb.
      destruct (rnew false ts td x); [reflexivity|].
      destruct (fltb (w_poa (snd x) / cs)%fl (w_temp (snd x))); cbn [negb]; [|reflexivity]. unfold k; ring. }
  rewrite ES. clear ES.
  assert (EC : assign_mask (new0 :: map (rnew ud ts td) P) (Some 1) (map (fun _ : R => None) (map w_time (w0 :: rows)))
     = (if new0 then Some 1 else None) :: map (fun b : bool => if b then Some 1 else None) (map (rnew ud ts td) P)).
  { cbn [map]. unfold assign_mask. cbn [zip_with]. f_equal. rewrite map_map, (map_pairs w_time (fun _ => None) t0 rows).
    fold P. rewrite zip_map, map_map. reflexivity. }
  rewrite EC. clear EC.
  cbn [snow_rows]. change (match freq with Some h => (w_snow w0 / # (h))%fl | None => # (0) end) with rate0.
  fold new0 slide0 t0. cbn [snow_recurrence].
  rewrite srows_pairs. fold P. rewrite <- combine_map.
  assert (HS : Forall (fun s => 0 <= s) (map (rslide ud ts td cs k) P)).
  { apply Forall_forall. intros s Hs. apply in_map_iff in Hs as (x & <- & Hx).
    pose proof (proj1 (Forall_forall _ _) (pairs_increasing w_time t0 rows Hinc) x Hx) as Hlt.
    unfold rslide. destruct (bare ud td (snd x)); [lra|]. destruct (rnew ud ts td x); [lra|].
    destruct (slides cs (snd x)); [|lra]. apply Rmult_le_pos; lra. }
  assert (HZ : Forall2 (fun (b : bool) s => b = true -> s = 0) (map (rnew ud ts td) P) (map (rslide ud ts td cs k) P))
    by (apply Forall2_map; intros x; apply rnew_slide).
  assert (HL : length (map (rnew ud ts td) P) = length (map (rslide ud ts td cs k) P)) by (rewrite !map_length; reflexivity).
  assert (H0 : 0 <= slide0) by (unfold slide0; destruct (bare ud td w0); lra).
  unfold group_cumsum, cumcount, ffill. cbn [cumcount_from combine group_cumsum_from app fst].
  assert (HN : new0 = true -> slide0 = 0).
  { intros H. unfold new0, new_snow, deep in H. apply andb_prop in H as [_ H]. unfold slide0, bare.
    destruct ud; simpl in *; [|reflexivity]. destruct (fltb _ _) eqn:E; [|reflexivity].
    destruct td, (w_depth w0); simpl in *; try discriminate. apply Rltb_true in E. apply Rleb_true in H. lra. }
  destruct new0.
  - rewrite (HN eq_refl). cbn [ffill_from zip_with]. rewrite sum_group_one, Nat.eqb_refl. f_equal; [rmm; lra|].
    apply snow_inv; auto; [intros r [<-|[]]; simpl; lia|]. rewrite sum_group_one, Nat.eqb_refl. rmm; lra.
  - cbn [ffill_from zip_with]. rewrite sum_group_one, Nat.eqb_refl. f_equal; [rmm; lra|].
    apply snow_inv; auto; [intros r [<-|[]]; simpl; lia|]. rewrite sum_group_one, Nat.eqb_refl. rmm; lra.
Qed.

(** consequences of the recurrence *)
Lemma snow_rec_range p l : 0 <= p <= 1 -> Forall (fun bs => 0 <= snd bs) l ->
  Forall (fun c => 0 <= c <= 1) (snow_recurrence p l).
Proof.
  revert p. induction l as [|[b s] l IH]; intros p Hp H; simpl; [constructor|].
  inversion H; subst; simpl in *.
  assert (0 <= (if b then 1 else Rmax 0 (p - s)) <= 1) by (destruct b; rmm; lra).
  constructor; [assumption|]. apply IH; assumption.
Qed.
Lemma snow_rec_length p l : length (snow_recurrence p l) = length l.
Proof. revert p. induction l as [|[b s] l IH]; intros p; simpl; [reflexivity|]. f_equal. apply IH. Qed.
Lemma snow_rec_step p l i b s d : nth_error l (S i) = Some (b, s) ->
  nth (S i) (snow_recurrence p l) d = if b then 1 else Rmax 0 (nth i (snow_recurrence p l) d - s).
Proof.
  revert p l. induction i as [|i IH]; intros p l H.
  - destruct l as [|[b0 s0] [|[b1 s1] l]]; try discriminate. simpl in H. injection H as -> ->. reflexivity.
  - destruct l as [|[b0 s0] l]; [discriminate|]. cbn [snow_recurrence nth]. apply IH. exact H.
Qed.
Lemma snow_rec_nonincr p l i s d : nth_error l (S i) = Some (false, s) -> 0 <= s -> 0 <= nth i (snow_recurrence p l) d ->
  nth (S i) (snow_recurrence p l) d <= nth i (snow_recurrence p l) d.
Proof. intros H Hs Hn. rewrite (snow_rec_step p l i false s d H). rmm; lra. Qed.
Lemma snow_rows_pos ud ts td cs k freq rows : increasing (map w_time rows) -> 0 <= k ->
  Forall (fun bs => 0 <= snd bs) (snow_rows ud ts td cs k freq rows).
Proof.
  intros Hinc Hk. destruct rows as [|w0 rows]; simpl; constructor.
  - simpl. destruct (bare ud td w0); lra.
  - simpl in Hinc. rewrite srows_pairs. apply Forall_forall. intros bs H. apply in_map_iff in H as (x & <- & Hx).
    pose proof (proj1 (Forall_forall _ _) (pairs_increasing w_time _ rows Hinc) x Hx) as Hlt. simpl.
    unfold rslide. destruct (bare ud td (snd x)); [lra|]. destruct (rnew ud ts td x); [lra|].
    destruct (slides cs (snd x)); [|lra]. apply Rmult_le_pos; lra.
Qed.
Lemma snow_rows_length ud ts td cs k freq rows : length (snow_rows ud ts td cs k freq rows) = length rows.
Proof.
  destruct rows as [|w0 rows]; simpl; [reflexivity|]. f_equal. rewrite srows_pairs, map_length.
  rewrite <- (pairs_snd w_time (w_time w0) rows) at 2. rewrite map_length. reflexivity.
Qed.

(** ** dc_loss_nrel *)
Lemma dc_loss_spec c n : 0 < IZR n ->
  exists k, dc_loss_nrel #c #(IZR n) = #(IZR k / IZR n) /\
    (forall j, c <= IZR j / IZR n <-> (k <= j)%Z).
Proof.
  intros Hn. unfold dc_loss_nrel. fin. try rewrite fdiv_fin by lra.
  destruct (Rceil_Z (c * IZR n)) as [k Hk]. exists k. rewrite Hk. split; [reflexivity|].
  assert (D : forall j, c <= IZR j / IZR n <-> c * IZR n <= IZR j).
  { intros j. split; intros H.
    - apply Rmult_le_compat_r with (r := IZR n) in H; [|lra]. unfold Rdiv in H. rewrite Rmult_assoc, Rinv_l in H by lra. lra.
    - apply Rmult_le_reg_r with (IZR n); [exact Hn|]. unfold Rdiv. rewrite Rmult_assoc, Rinv_l by lra. lra. }
  intros j. rewrite D. pose proof (Rceil_ge (c * IZR n)) as H1. pose proof (Rceil_lt (c * IZR n)) as H2.
  rewrite Hk in H1, H2. split; intros H.
  - apply Z.lt_succ_r. apply lt_IZR. rewrite succ_IZR. lra.
  - apply IZR_le in H. lra.
Qed.
Lemma dc_loss_range c n : 0 <= c <= 1 -> (0 < n)%Z ->
  exists x, dc_loss_nrel #c #(IZR n) = #x /\ c <= x /\ 0 <= x <= 1.
Proof.
  intros Hc Hn0. pose proof (IZR_lt _ _ Hn0) as Hn. destruct (dc_loss_spec c n Hn) as (k & E & S). exists (IZR k / IZR n).
  split; [exact E|]. assert (H1 : c <= IZR k / IZR n) by (apply S; lia).
  assert (Hkn : (k <= n)%Z) by (apply S; unfold Rdiv; rewrite Rinv_r by lra; lra).
  split; [exact H1|]. split; [lra|]. apply Rmult_le_reg_r with (IZR n); [exact Hn|].
  unfold Rdiv. rewrite Rmult_assoc, Rinv_l by lra. apply IZR_le in Hkn. lra.
Qed.

(** ** Townsend *)
Lemma zip_nth {A B C} (f : A -> B -> C) l m i : nth_error (zip_with f l m) i =
  match nth_error l i, nth_error m i with Some a, Some b => Some (f a b) | _, _ => None end.
Proof.
  revert m i. induction l as [|a l IH]; intros [|b m] [|i]; simpl; try reflexivity.
  - destruct (nth_error l i); reflexivity.
  - apply IH.
Qed.
Lemma roll1_app {A} (l : list A) x : roll1 (l ++ [x]) = x :: l.
Proof. unfold roll1. rewrite rev_unit. rewrite rev_involutive. reflexivity. Qed.
Lemma roll1_length {A} (l : list A) : length (roll1 l) = length l.
Proof.
  destruct l as [|a l] using rev_ind; [reflexivity|]. rewrite roll1_app, app_length. simpl. lia.
Qed.
Lemma roll1_S {A} (l : list A) i : (S i < length l)%nat -> nth_error (roll1 l) (S i) = nth_error l i.
Proof.
  intros H. destruct l as [|a l _] using rev_ind; [simpl in H; lia|]. rewrite roll1_app. simpl.
  rewrite app_length in H. simpl in H. rewrite nth_error_app1 by lia. reflexivity.
Qed.
Lemma roll1_0 {A} (l : list A) : nth_error (roll1 l) 0 = nth_error l (length l - 1).
Proof.
  destruct l as [|a l _] using rev_ind; [reflexivity|]. rewrite roll1_app, app_length. simpl.
  rewrite nth_error_app2 by lia. replace (length l + 1 - 1 - length l)%nat with 0%nat by lia. reflexivity.
Qed.
Lemma zip_length {A B C} (f : A -> B -> C) l m : length l = length m -> length (zip_with f l m) = length m.
Proof. revert m. induction l as [|a l IH]; intros [|b m] H; simpl; try lia; try discriminate. f_equal. apply IH. simpl in H; lia. Qed.
Lemma townsend_range prev cur a b c d e : within #0 #1 (townsend_month prev cur a b c d e).
Proof. unfold townsend_month. apply fclip_within. lra. Qed.
Definition fmonth (total events tilt rh temp poa : R) : month := Month #total #events #tilt #rh #temp #poa.
Lemma townsend_eff_fin t e : townsend_effective_snow #(t / 2.54) #e = #(eff_snow_in t e).
Proof.
  unfold townsend_effective_snow, eff_snow_in. fin. pose proof (Rmax_r e 1). try rewrite fdiv_fin by lra. fin.
  unfold where_, Rltb. destruct (Rlt_dec 0 e); [|reflexivity]. reflexivity.
Qed.
Lemma townsend_formula pt pe ptilt prh ptemp ppoa t e tilt rh temp poa slant edge sf rep ff :
  temp + 273.15 <> 0 -> 0 < poa -> cosD rep <> 0 ->
  townsend_month (fmonth pt pe ptilt prh ptemp ppoa) (fmonth t e tilt rh temp poa) #slant #edge #sf #rep #ff =
  #(Rmin (Rmax (townsend_equation (eff_snow_in pt pe) (eff_snow_in t e) tilt rh temp poa slant edge sf rep ff) 0) 1).
Proof.
  intros HT HP HR. unfold townsend_month, fmonth. cbn [snow_total snow_events m_tilt m_rh m_temp m_poa].
  rewrite (fdiv_fin pt), (fdiv_fin t), !townsend_eff_fin by lra.
  set (p := eff_snow_in pt pe). set (c := eff_snow_in t e).
  rewrite !tand_fin, (fdiv_fin poa), (fdiv_fin rh) by (auto; lra). fin.
  set (s := 1 / 3 * p + 2 / 3 * c).
  set (D := Rmax _ 0.1). assert (HD : 0.1 <= D) by (unfold D; apply Rmax_r).
  try rewrite (fdiv_fin _ D) by lra. fin.
  try rewrite (fdiv_fin _ ((temp + 273.15) ^ 2)) by (apply pow_nonzero, HT).
  try rewrite fpow_fin by lra. pose proof (exp_pos (0.67 * ln (poa / 1000))) as HPW. fold (Rpower (poa / 1000) 0.67) in HPW.
  try rewrite (fdiv_fin _ (Rpower _ _)) by lra. fin. f_equal. f_equal. f_equal.
  unfold townsend_equation. fold p c.
  replace (p / 3 + 2 * c / 3) with s by (unfold s; field). fold D.
  assert (EG : - (slant * 39.37 * s * cosD tilt / D * 2 * tanD rep) = - (2 * (slant * 39.37) * s * cosD tilt * tanD rep / D)) by (field; lra).
  rewrite EG. reflexivity.
Qed.
Lemma townsend_no_events pt pe ptilt prh ptemp ppoa t e tilt rh temp poa slant edge sf rep ff :
  temp + 273.15 <> 0 -> 0 < poa -> cosD rep <> 0 -> pe <= 0 -> e <= 0 ->
  townsend_month (fmonth pt pe ptilt prh ptemp ppoa) (fmonth t e tilt rh temp poa) #slant #edge #sf #rep #ff = #0.
Proof.
  intros. rewrite townsend_formula by assumption. unfold eff_snow_in.
  destruct (Rlt_dec 0 pe); [lra|]. destruct (Rlt_dec 0 e); [lra|]. unfold townsend_equation.
  replace (0 / 3 + 2 * 0 / 3) with 0 by field. f_equal.
  assert (E : forall x y z u, 57000 * 0 * x ^ 2 * y * z / (temp + 273.15) ^ 2 / u = 0) by (intros; unfold Rdiv; ring).
  rewrite E, !Rmult_0_l. rmm; lra.
Qed.

(** ** resets by forward filling *)
Definition unopt (r : option R) : R := match r with Some x => x | None => 0 end.
Definition mark (c : bool) (m : R) : option R := if c then Some m else None.
Lemma reset_inv : forall cl g acc r, length cl = length g ->
  zip_with (fun m r => m - unopt r) (cumsum_from acc g) (ffill_from (Some r) (zip_with mark cl (cumsum_from acc g)))
  = reset_recurrence (acc - r) (combine cl g).
Proof.
  induction cl as [|c cl IH]; intros [|x g] acc r H; try discriminate; [reflexivity|]. injection H as H.
  cbn [cumsum_from zip_with ffill_from combine reset_recurrence mark]. destruct c; cbn [unopt mark].
  - f_equal; [ring|]. rewrite IH by exact H. f_equal. ring.
  - f_equal; [ring|]. rewrite IH by exact H. f_equal. ring.
Qed.
Lemma reset_first c0 cl x g : length cl = length g ->
  zip_with (fun m r => m - unopt r) (cumsum (x :: g))
    (ffill (zip_with (fun (c : bool) rm => if c then Some (fst rm) else snd rm) (c0 :: cl)
       (combine (cumsum (x :: g)) (Some 0 :: map (fun _ => None) g))))
  = reset_recurrence 0 (combine (c0 :: cl) (x :: g)).
Proof.
  intros H. unfold cumsum, ffill. cbn [cumsum_from combine zip_with ffill_from fst snd].
  assert (E : zip_with (fun (c : bool) rm => if c then Some (fst rm) else snd rm) cl
                (combine (cumsum_from (0 + x) g) (map (fun _ => None) g)) = zip_with mark cl (cumsum_from (0 + x) g)).
  { generalize (0 + x). clear H. revert cl. induction g as [|y g IH]; intros [|c cl] a; simpl; try reflexivity. f_equal. apply IH. }
  rewrite E. cbn [combine reset_recurrence].
  destruct c0; cbn [unopt]; f_equal; try ring; rewrite reset_inv by exact H; f_equal; ring.
Qed.

(** ** rain windows *)
Definition flo (x : option R) : fl := match x with Some r => Fin r | None => NaN end.
Definition rsel (P t : R) (rows : list rainrow) : list fl :=
  filter (fun x => negb (isnan x))
    (map snd (filter (fun r => in_window P t (fst r)) (map (fun x => (r_time x, flo (r_rain x))) rows))).
Lemma fsum_fin_list l : fold_right fadd #0 (map Fin l) = #(fold_right Rplus 0 l).
Proof. induction l as [|x l IH]; simpl; [reflexivity|]. rewrite IH. reflexivity. Qed.
Lemma rsel_sum P t rows : fsum (rsel P t rows) = #(rain_in_window P t rows).
Proof.
  induction rows as [|r rows IH]; [reflexivity|].
  unfold rsel in *. cbn [map filter fst rain_in_window]. change (in_win P t (r_time r)) with (in_window P t (r_time r)).
  destruct (in_window P t (r_time r)).
  - cbn [map filter snd]. destruct (r_rain r) as [x|]; cbn [flo isnan negb].
    + rewrite fsum_cons, IH. reflexivity.
    + rewrite IH. f_equal. ring.
  - rewrite IH. f_equal. ring.
Qed.
Lemma rsel_nil P t rows : rsel P t rows = [] -> rain_in_window P t rows = 0.
Proof. intros H. pose proof (rsel_sum P t rows) as E. rewrite H in E. apply Fin_inj in E. symmetry. exact E. Qed.
Lemma rolling_rows P rows :
  rolling_sum P (map r_time rows) (map (fun r => flo (r_rain r)) rows) =
  map (fun r => match rsel P (r_time r) rows with [] => NaN | _ => #(rain_in_window P (r_time r) rows) end) rows.
Proof.
  unfold rolling_sum. rewrite map_map, combine_map. apply map_ext. intros r. fold (rsel P (r_time r) rows).
  destruct (rsel P (r_time r) rows) eqn:E; [reflexivity|]. rewrite <- E. apply rsel_sum.
Qed.
Lemma rain_gt P thr rows t : 0 <= thr ->
  fgtb (match rsel P t rows with [] => NaN | _ => #(rain_in_window P t rows) end) #thr = Rltb thr (rain_in_window P t rows).
Proof.
  intros H. destruct (rsel P t rows) eqn:E; [|reflexivity]. rewrite (rsel_nil _ _ _ E). cbn. rdec. reflexivity.
Qed.
Lemma rain_ge P thr rows t : 0 < thr ->
  fgeb (match rsel P t rows with [] => NaN | _ => #(rain_in_window P t rows) end) #thr = Rleb thr (rain_in_window P t rows).
Proof.
  intros H. destruct (rsel P t rows) eqn:E; [|reflexivity]. rewrite (rsel_nil _ _ _ E). cbn. rdec. reflexivity.
Qed.
Lemma heavy_rows P thr rows : 0 <= thr ->
  map (fun a => fgtb a #thr) (rolling_sum P (map r_time rows) (map (fun r => flo (r_rain r)) rows)) = map (heavy P thr rows) rows.
Proof. intros H. rewrite rolling_rows, map_map. apply map_ext. intros r. apply rain_gt, H. Qed.
Lemma soaked_rows P thr rows : 0 < thr ->
  map (fun a => fgeb a #thr) (rolling_sum P (map r_time rows) (map (fun r => flo (r_rain r)) rows))
  = map (fun r => Rleb thr (rain_in_window P (r_time r) rows)) rows.
Proof. intros H. rewrite rolling_rows, map_map. apply map_ext. intros r. apply rain_ge, H. Qed.
(** rolling sum of flags is positive iff a flag is set in the window *)
Lemma flag_sum G t (f : rainrow -> bool) rows (n : R) : 0 <= n ->
  exists m, n <= m /\ fold_left fadd (filter (fun x => negb (isnan x))
    (map snd (filter (fun r => in_window G t (fst r)) (map (fun x => (r_time x, if f x then #1 else #0)) rows)))) #n = #m /\
  (n < m <-> existsb (fun r' => in_win G t (r_time r') && f r') rows = true).
Proof.
  revert n. induction rows as [|r rows IH]; intros n Hn.
  - exists n. simpl. repeat split; try lra; try discriminate.
  - cbn [map filter fst existsb]. change (in_win G t (r_time r)) with (in_window G t (r_time r)).
    destruct (in_window G t (r_time r)); [|apply IH, Hn].
    cbn [map filter snd andb]. destruct (f r); cbn [isnan negb fold_left]; rewrite fadd_fin.
    + destruct (IH (n + 1)) as (m & H1 & H2 & H3); [lra|]. exists m. split; [lra|]. split; [exact H2|].
      split; [reflexivity|]. intros _. lra.
    + destruct (IH (n + 0)) as (m & H1 & H2 & H3); [lra|]. exists m. split; [lra|]. split; [exact H2|].
      rewrite <- H3. rewrite Rplus_0_r. tauto.
Qed.
Lemma grace_rows G rows (f : rainrow -> bool) :
  map (fun s => fgtb s #0) (rolling_sum G (map r_time rows) (map (fun b : bool => if b then #1 else #0) (map f rows)))
  = map (fun r => existsb (fun r' => in_win G (r_time r) (r_time r') && f r') rows) rows.
Proof.
  unfold rolling_sum. rewrite !map_map, combine_map. apply map_ext. intros r.
  destruct (flag_sum G (r_time r) f rows 0) as (m & H1 & H2 & H3); [lra|].
  set (w := filter _ _) in *. destruct w as [|y w'] eqn:E.
  - cbn in H2. injection H2 as H2. destruct (existsb _ rows); [|reflexivity]. assert (0 < m) by (apply H3; reflexivity). lra.
  - unfold fsum. rewrite H2. cbn. destruct (existsb _ rows).
    + rewrite Rltb_t; [reflexivity|]. apply H3; reflexivity.
    + apply Rltb_f. destruct (Rle_dec m 0); [lra|]. assert (0 < m) by lra. apply H3 in H. discriminate.
Qed.

(** ** kimber *)
Lemma two_marks {A} (w g : list bool) (s : list A) c :
  zip_with (fun (w : bool) sc => if w then Some (fst sc) else snd sc) w
    (combine s (zip_with (fun (g : bool) sc => if g then Some (fst sc) else snd sc) g (combine s c)))
  = zip_with (fun (w : bool) sc => if w then Some (fst sc) else snd sc) (zip_with orb g w) (combine s c).
Proof.
  revert w g c. induction s as [|x s IH]; intros [|b w] [|d g] [|y c]; simpl; try reflexivity.
  f_equal; [destruct b, d; reflexivity|apply IH].
Qed.
Theorem kimber_is_recurrence rows thr rate G cap init P :
  (2 <= length rows)%nat -> 0 <= thr ->
  kimber (map r_time rows) (map (fun r => flo (r_rain r)) rows) #thr rate G cap (map r_wash rows) true init P
  = Ok (map (fun s => Rmin s cap) (reset_recurrence 0 (kimber_rows P thr rate G init rows))).
Proof.
  intros Hlen Hthr. destruct rows as [|r0 [|r1 rows]]; try (simpl in Hlen; lia).
  set (all := r0 :: r1 :: rows) in *. unfold kimber.
  replace (map r_time all) with (r_time r0 :: r_time r1 :: map r_time rows) at 1 by reflexivity.
  cbn iota beta. cbn [negb]. f_equal.
  rewrite (heavy_rows P thr all Hthr).
  rewrite grace_rows. rewrite two_marks, zip_map.
  set (gr := 1 * rate * ((r_time r1 - r_time r0) / 24)).
  set (clean := fun r => existsb (fun r' => in_win (G * 24) (r_time r) (r_time r') && heavy P thr all r') all || r_wash r).
  assert (E1 : set_first init (map (fun _ : R => gr) (map r_time all)) = init :: map (fun _ => gr) (r1 :: rows))
    by (unfold all; cbn [map set_first]; f_equal; f_equal; rewrite map_map; reflexivity).
  assert (E2 : set_first (Some 0) (map (fun _ : R => @None R) (map r_time all)) = Some 0 :: map (fun _ => None) (map (fun _ => gr) (r1 :: rows)))
    by (unfold all; cbn [map set_first]; rewrite !map_map; reflexivity).
  rewrite E1, E2.
  change (fun (s : R) (c : option R) => s - match c with Some x => x | None => 0 end) with (fun s c => s - unopt c).
  replace (map clean all) with (clean r0 :: map clean (r1 :: rows)) by reflexivity.
  rewrite reset_first by (rewrite !map_length; reflexivity).
  cbn [combine]. rewrite combine_map.
  assert (EK : kimber_rows P thr rate G init all = (clean r0, init) :: map (fun r => (clean r, rate * ((r_time r1 - r_time r0) / 24))) (r1 :: rows))
    by reflexivity.
  rewrite EK. rewrite (map_ext (fun x => (clean x, gr)) (fun r => (clean r, rate * ((r_time r1 - r_time r0) / 24))))
    by (intros r; unfold gr; rewrite Rmult_1_l; reflexivity).
  apply map_ext. intros s. unfold Rmin, Rltb. destruct (Rlt_dec s cap), (Rle_dec s cap); try reflexivity; try lra.
Qed.
Lemma reset_nonneg p l : 0 <= p -> Forall (fun cg => 0 <= snd cg) l -> Forall (fun s => 0 <= s) (reset_recurrence p l).
Proof.
  revert p. induction l as [|[c g] l IH]; intros p Hp H; simpl; constructor; inversion H; subst; simpl in *.
  - destruct c; lra.
  - apply IH; [destruct c; lra|assumption].
Qed.
Lemma reset_step p l i c g d : nth_error l (S i) = Some (c, g) ->
  nth (S i) (reset_recurrence p l) d = if c then 0 else nth i (reset_recurrence p l) d + g.
Proof.
  revert p l. induction i as [|i IH]; intros p l H.
  - destruct l as [|[c0 g0] [|[c1 g1] l]]; try discriminate. simpl in H. injection H as -> ->. reflexivity.
  - destruct l as [|[c0 g0] l]; [discriminate|]. cbn [reset_recurrence nth]. apply IH. exact H.
Qed.
Lemma reset_clean p l i g d : nth_error l i = Some (true, g) -> nth i (reset_recurrence p l) d = 0.
Proof.
  revert p i. induction l as [|[c x] l IH]; intros p [|i] H; try discriminate.
  - injection H as -> ->. reflexivity.
  - cbn [reset_recurrence nth]. apply IH. exact H.
Qed.
Lemma reset_length p l : length (reset_recurrence p l) = length l.
Proof. revert p. induction l as [|[c g] l IH]; intros p; simpl; [reflexivity|]. f_equal. apply IH. Qed.

(** ** hsu *)
Theorem hsu_is_recurrence erf rows thr tilt v25 v10 P :
  (2 <= length rows)%nat -> 0 < thr ->
  hsu erf (map r_time rows) (map (fun r => flo (r_rain r)) rows) #thr tilt (map r_pm25 rows) (map r_pm10 rows) v25 v10 P
  = Ok (map (fun m => fsub #1 (fmul #0.3437
           (match fmul #0.17 (fpow #m #0.8473) with Fin x => Fin (erf x) | PInf => #1 | NInf => #(-1) | NaN => NaN end)))
         (reset_recurrence 0 (hsu_rows P thr v25 v10 (cosD tilt) rows))).
Proof.
  intros Hlen Hthr. destruct rows as [|r0 [|r1 rows]]; try (simpl in Hlen; lia).
  set (all := r0 :: r1 :: rows) in *. unfold hsu.
  replace (match map r_time all with [] => [] | t0 :: l => diffs_from t0 l end)
    with ((r_time r1 - r_time r0) :: diffs_from (r_time r1) (map r_time rows)) by reflexivity.
  cbn iota beta zeta. f_equal. f_equal.
  rewrite (soaked_rows P thr all Hthr).
  set (cl := fun r => Rleb thr (rain_in_window P (r_time r) all)).
  set (p0 := r_time r0 - (r_time r1 - r_time r0)).
  replace (((r_time r1 - r_time r0) :: (r_time r1 - r_time r0) :: diffs_from (r_time r1) (map r_time rows)))
    with (diffs_from p0 (map r_time all)).
  2:{ unfold all, p0. cbn [map diffs_from]. f_equal. ring. }
  rewrite pairs_diffs, combine_map, (map_pairs r_time (fun x => (r_pm25 x, r_pm10 x)) p0 all), zip_map.
  rewrite (map_pairs r_time cl p0 all).
  set (PP := pairs r_time p0 all).
  set (tm := fun x : R * rainrow => horiz_rate v25 v10 (fst (r_pm25 (snd x), r_pm10 (snd x))) (snd (r_pm25 (snd x), r_pm10 (snd x)))
        (r_time (snd x) - fst x) * cosD tilt).
  assert (ER : hsu_rows P thr v25 v10 (cosD tilt) all = combine (map (fun x => cl (snd x)) PP) (map tm PP)).
  { unfold hsu_rows. unfold all at 1. unfold PP. rewrite combine_map. fold p0. unfold cl. generalize all at 1 3 as a. intros a.
    generalize p0. generalize all. intros l. induction l as [|r l IH]; intros p; [reflexivity|].
    cbn [pairs map hsu_after snd fst]. f_equal. apply IH. }
  rewrite ER.
  assert (EM : set_first (Some 0) (map (fun _ : R => @None R) (map r_time all)) = set_first (Some 0) (map (fun _ : R => @None R) (map tm PP))).
  { rewrite !map_map. rewrite (map_pairs r_time (fun _ => None) p0 all). reflexivity. }
  rewrite EM. change (fun (s : R) (c : option R) => s - match c with Some x => x | None => 0 end) with (fun s c => s - unopt c).
  assert (EP : PP = (p0, r0) :: pairs r_time (r_time r0) (r1 :: rows)) by reflexivity.
  rewrite EP. cbn [map set_first]. apply reset_first. rewrite !map_length. reflexivity.
Qed.
(** ** the soiling ratio as a function of the mass *)
Definition ratio_of (erf : R -> R) (m : R) : fl :=
  fsub #1 (fmul #0.3437
     (match fmul #0.17 (fpow #m #0.8473) with Fin x => Fin (erf x) | PInf => #1 | NInf => #(-1) | NaN => NaN end)).
Definition mass_pow (m : R) : R := if Rlt_dec 0 m then Rpower m 0.8473 else 0.
Lemma ratio_fin erf m : 0 <= m -> ratio_of erf m = #(1 - 0.3437 * erf (0.17 * mass_pow m)).
Proof.
  intros H. unfold ratio_of, mass_pow. destruct (Rlt_dec 0 m).
  - rewrite fpow_fin by assumption. fin. reflexivity.
  - assert (m = 0) by lra. subst. rewrite fpow_zero by lra. fin. reflexivity.
Qed.
Lemma mass_pow_mono a b : 0 <= a <= b -> 0 <= mass_pow a <= mass_pow b.
Proof.
  intros [Ha Hb]. unfold mass_pow, Rpower. destruct (Rlt_dec 0 a), (Rlt_dec 0 b); try lra.
  - split; [left; apply exp_pos|]. destruct Hb as [Hb|<-]; [|lra]. left. apply exp_increasing.
    apply Rmult_lt_compat_l; [lra|]. apply ln_increasing; assumption.
  - split; [lra|]. left; apply exp_pos.
Qed.
(** what is used about scipy.special.erf on the non-negative half-line *)
Definition erf_like (erf : R -> R) : Prop :=
  erf 0 = 0 /\ (forall x y, 0 <= x <= y -> erf x <= erf y) /\ (forall x, 0 <= x -> erf x <= 1).
Lemma ratio_range erf m : erf_like erf -> 0 <= m ->
  exists x, ratio_of erf m = #x /\ 0.6563 <= x <= 1.
Proof.
  intros (E0 & EM & E1) H. rewrite ratio_fin by exact H. eexists. split; [reflexivity|].
  destruct (mass_pow_mono 0 m) as [_ HP]; [lra|]. pose proof (mass_pow_mono m m) as HP2.
  assert (0 <= 0.17 * mass_pow m) by lra.
  pose proof (EM 0 (0.17 * mass_pow m)) as L. pose proof (E1 (0.17 * mass_pow m)) as U. lra.
Qed.
Lemma ratio_zero erf : erf_like erf -> ratio_of erf 0 = #1.
Proof.
  intros (E0 & _). rewrite ratio_fin by lra. unfold mass_pow. destruct (Rlt_dec 0 0); [lra|].
  rewrite Rmult_0_r, E0. f_equal. lra.
Qed.
Lemma ratio_mono erf a b : erf_like erf -> 0 <= a <= b ->
  exists x y, ratio_of erf a = #x /\ ratio_of erf b = #y /\ y <= x.
Proof.
  intros (E0 & EM & E1) H. rewrite !ratio_fin by lra. do 2 eexists. split; [reflexivity|]. split; [reflexivity|].
  pose proof (mass_pow_mono a b H). pose proof (EM (0.17 * mass_pow a) (0.17 * mass_pow b)). lra.
Qed.
Lemma hsu_after_pos P thr v25 v10 ct p all l : 0 <= v25 -> 0 <= v10 -> 0 <= ct ->
  Forall (fun r => 0 <= r_pm25 r) l -> increasing_from p (map r_time l) ->
  Forall (fun cg => 0 <= snd cg) (hsu_after P thr v25 v10 ct p all l).
Proof.
  intros H1 H2 H3. revert p. induction l as [|r l IH]; intros p HF HI; simpl; constructor.
  - simpl. inversion HF; subst. simpl in HI. pose proof (Rmax_r (r_pm10 r - r_pm25 r) 0).
    repeat apply Rmult_le_pos; try lra. apply Rplus_le_le_0_compat; apply Rmult_le_pos; lra.
  - apply IH; [inversion HF; assumption|apply HI].
Qed.
Lemma hsu_rows_pos P thr v25 v10 ct rows : 0 <= v25 -> 0 <= v10 -> 0 <= ct ->
  Forall (fun r => 0 <= r_pm25 r) rows -> increasing (map r_time rows) ->
  Forall (fun cg => 0 <= snd cg) (hsu_rows P thr v25 v10 ct rows).
Proof.
  intros H1 H2 H3 HF HI. unfold hsu_rows. destruct rows as [|r0 [|r1 rows]]; [constructor|constructor|].
  apply hsu_after_pos; auto. simpl in *. split; [lra|]. exact HI.
Qed.
Lemma hsu_rows_length P thr v25 v10 ct rows : (2 <= length rows)%nat -> length (hsu_rows P thr v25 v10 ct rows) = length rows.
Proof.
  intros H. unfold hsu_rows. destruct rows as [|r0 [|r1 rows]]; try (simpl in H; lia).
  generalize (r_time r0 - (r_time r1 - r_time r0)). set (a := r0 :: r1 :: rows) at 1. generalize a. clear.
  intros a. generalize (r0 :: r1 :: rows). induction l as [|r l IH]; intros p; simpl; [reflexivity|]. f_equal. apply IH.
Qed.
Lemma hsu_rows_clean P thr v25 v10 ct rows i : (2 <= length rows)%nat ->
  option_map fst (nth_error (hsu_rows P thr v25 v10 ct rows) i) =
  option_map (fun r => Rleb thr (rain_in_window P (r_time r) rows)) (nth_error rows i).
Proof.
  intros H. unfold hsu_rows. destruct rows as [|r0 [|r1 rows]]; try (simpl in H; lia).
  generalize (r_time r0 - (r_time r1 - r_time r0)). generalize (r0 :: r1 :: rows) at 1 3 as a. intros a.
  generalize (r0 :: r1 :: rows). intros l. revert i. induction l as [|r l IH]; intros [|i] p; simpl; try reflexivity.
  apply IH.
Qed.
