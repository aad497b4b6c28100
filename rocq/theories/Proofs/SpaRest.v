(** Proofs about refraction, threads, TT - UT and calendars in the solar position algorithm. *)
From Verif Require Import Base.Fl Base.FlFacts Base.Py Base.Trig Model.SolarPosition Model.SpaTables Model.Spa Spec.SolarSpec Spec.SpaSpec Proofs.SolarP Proofs.EphemP.
From Coq Require Import ZArith Psatz FinFun.
Open Scope R_scope.

(** *** refraction *)
Definition bennett (e : R) : R := e + 10.3 / (e + 5.11).
Lemma bennett_low e : -0.9 <= e -> 1.54 <= bennett e.
Proof.
  intros H. unfold bennett. assert (P : 0 < / (e + 5.11)) by (apply Rinv_0_lt_compat; lra).
  assert (Q : (bennett e - 1.54) * (e + 5.11) = (e - 1.54) * (e + 5.11) + 10.3) by (unfold bennett; field; lra). unfold bennett in Q.
  assert (0 <= (e - 1.54) * (e + 5.11) + 10.3) by nra.
  destruct (Rle_lt_dec 1.54 (e + 10.3 / (e + 5.11))); [assumption|]. exfalso. set (w := e + 10.3 / (e + 5.11)) in *. nra.
Qed.
Lemma bennett_high e : -0.9 <= e <= 89.8 -> bennett e < 90.
Proof.
  intros H. assert (Q : (90 - bennett e) * (e + 5.11) = (90 - e) * (e + 5.11) - 10.3) by (unfold bennett; field; lra).
  assert (0 < (90 - e) * (e + 5.11) - 10.3) by nra.
  destruct (Rle_lt_dec 90 (bennett e)); [|assumption]. exfalso. set (w := bennett e) in *. nra.
Qed.
Lemma refr_fin p t e rf : -273 < t -> e <> -5.11 -> cos (Rrad (bennett e)) <> 0 -> sin (Rrad (bennett e)) <> 0 ->
  atmospheric_refraction_correction #p #t #e #rf =
  #(p / 1010 * (283 / (273 + t)) * 1.02 / (60 * tan (Rrad (bennett e))) * (if Rleb (- (0.26667 + rf)) e then 1 else 0)).
Proof.
  intros T E C S. unfold atmospheric_refraction_correction. autorewrite with flfin. rewrite (fdiv_fin 10.3) by lra. autorewrite with flfin.
  change (e + 10.3 / (e + 5.11)) with (bennett e). rewrite ftan_fin by exact C. rewrite !fdiv_fin by lra. autorewrite with flfin.
  rewrite fdiv_fin; [|unfold tan; intros Z; apply Rmult_integral in Z; destruct Z as [Z|Z]; [lra|]; apply Rmult_integral in Z; destruct Z as [Z|Z]; [contradiction | apply (Rinv_neq_0_compat _ C Z)]].
  replace (-1 * (0.26667 + rf)) with (- (0.26667 + rf)) by ring. destruct (Rleb (- (0.26667 + rf)) e); autorewrite with flfin; reflexivity.
Qed.
Lemma refr_below p t e rf : -273 < t -> e <> -5.11 -> sin (Rrad (bennett e)) <> 0 -> e < - (0.26667 + rf) ->
  atmospheric_refraction_correction #p #t #e #rf = #0.
Proof.
  intros T E S B. destruct (Req_dec (cos (Rrad (bennett e))) 0) as [C|C].
  - unfold atmospheric_refraction_correction. autorewrite with flfin. rewrite (fdiv_fin 10.3) by lra. autorewrite with flfin.
    change (e + 10.3 / (e + 5.11)) with (bennett e). rewrite !(fdiv_fin _ 1010), (fdiv_fin 283) by lra. autorewrite with flfin.
    rewrite (Rleb_f (-1 * (0.26667 + rf))) by lra. unfold ftan. cbn [fsin fcos]. rewrite C. rewrite fdiv_zero. unfold sinf.
    destruct (Rpos (sin (Rrad (bennett e)))) eqn:P1.
    + cbn [fmul]. unfold sinf. replace (Rpos 60) with true by (symmetry; apply Rltb_true; lra). cbn [fdiv]. cbv beta iota. cbn [fmul]. apply f_equal. ring.
    + destruct (Rneg (sin (Rrad (bennett e)))) eqn:P2.
      * cbn [fmul]. unfold sinf. replace (Rpos (Ropp 60)) with false by (symmetry; apply Rltb_false; lra). replace (Rneg (Ropp 60)) with true by (symmetry; apply Rltb_true; lra).
        cbn [fdiv]. cbv beta iota. cbn [fmul]. apply f_equal. ring.
      * apply Rltb_false in P1, P2. exfalso. lra.
  - rewrite refr_fin by assumption. rewrite Rleb_f by lra. f_equal. ring.
Qed.
Lemma refr_pole p t rf : atmospheric_refraction_correction #p #t #(-5.11) #rf = NaN.
Proof.
  unfold atmospheric_refraction_correction. autorewrite with flfin. replace (-5.11 + 5.11) with 0 by lra. rewrite fdiv_zero. unfold sinf.
  replace (Rpos 10.3) with true by (symmetry; apply Rltb_true; lra). cbn [fadd fradians fmul]. unfold fradians. cbn [fmul]. unfold sinf.
  replace (Rpos PI) with true by (symmetry; apply Rltb_true; apply PI_RGT_0). cbn [fdiv]. replace (Rneg 180) with false by (symmetry; apply Rltb_false; lra).
  unfold ftan. cbn [fsin fcos fdiv]. cbn [fmul]. 
  set (X := fmul _ #1.02). destruct X; reflexivity.
Qed.
Lemma tan_bennett e : -0.9 <= e <= 89.8 -> 0.0268 <= tan (Rrad (bennett e)).
Proof.
  intros H. pose proof (bennett_low e) as L. pose proof (bennett_high e H) as U. pose proof PI_3141 as P. set (w := bennett e) in *.
  assert (Rrad w < PI / 2) by (unfold Rrad; nra). assert (0.0268 <= Rrad w) by (unfold Rrad; nra).
  pose proof (tan_ge (Rrad w)). lra.
Qed.
Lemma bennett_trig e : -0.9 <= e <= 89.8 -> 0 < sin (Rrad (bennett e)) /\ 0 < cos (Rrad (bennett e)).
Proof.
  intros H. pose proof (bennett_low e) as L. pose proof (bennett_high e H) as U. pose proof PI_3141 as P. set (w := bennett e) in *.
  assert (Rrad w < PI / 2) by (unfold Rrad; nra). assert (0 < Rrad w) by (unfold Rrad; nra).
  split; [apply sin_gt_0 | apply cos_gt_0]; lra.
Qed.

(** *** threads *)
Section Split.
  Context {A : Type}.
  Open Scope nat_scope.
  Definition nsum (l : list nat) : nat := fold_right Nat.add 0 l.
  Lemma nsum_repeat a k : nsum (repeat a k) = a * k.
  Proof. induction k; cbn [repeat nsum fold_right]; [lia|]. unfold nsum in IHk. rewrite IHk. lia. Qed.
  Lemma nsum_app l m : nsum (l ++ m) = nsum l + nsum m.
  Proof. induction l; cbn [app nsum fold_right]; [reflexivity|]. unfold nsum in *. rewrite IHl. lia. Qed.
  Lemma sizes_sum n k : 0 < k -> nsum (split_sizes n k) = n.
  Proof.
    intros K. unfold split_sizes. rewrite nsum_app, !nsum_repeat. pose proof (Nat.div_mod n k ltac:(lia)) as D. pose proof (Nat.mod_upper_bound n k ltac:(lia)) as B.
    set (q := Nat.div n k) in *. set (r := Nat.modulo n k) in *. rewrite Nat.mul_sub_distr_l. nia.
  Qed.
  Lemma sizes_length n k : 0 < k -> length (split_sizes n k) = k.
  Proof. intros K. unfold split_sizes. rewrite app_length, !repeat_length. pose proof (Nat.mod_upper_bound n k ltac:(lia)). lia. Qed.
  Lemma sizes_near n k a b : In a (split_sizes n k) -> In b (split_sizes n k) -> a <= S b.
  Proof.
    unfold split_sizes. rewrite !in_app_iff. intros [X|X] [Y|Y]; apply repeat_spec in X; apply repeat_spec in Y; lia.
  Qed.
  (** every piece is the corresponding slice *)
  Lemma split_at_spec sizes : forall start (l : list A), nsum sizes = length l ->
    concat (map snd (split_at start sizes l)) = l /\ map (fun c => length (snd c)) (split_at start sizes l) = sizes.
  Proof.
    induction sizes as [|n rest IH]; intros start l E; cbn [split_at map concat].
    - cbn in E. destruct l; [split; reflexivity | discriminate].
    - cbn [nsum fold_right] in E. destruct (IH (start + n) (skipn n l)) as [C L]. { rewrite skipn_length. unfold nsum. lia. }
      cbn [snd]. rewrite C, L, firstn_skipn. split; [reflexivity|]. f_equal. rewrite firstn_length. lia.
  Qed.
  Lemma split_at_slice sizes : forall start (l : list A), nsum sizes = length l ->
    forall s c, In (s, c) (split_at start sizes l) -> start <= s /\ s + length c <= start + length l /\ forall i d, i < length c -> nth i c d = nth (s - start + i) l d.
  Proof.
    induction sizes as [|n rest IH]; intros start l E s c H; [destruct H|]. cbn [split_at] in H. cbn [nsum fold_right] in E.
    assert (N : n <= length l) by (unfold nsum in E; lia). destruct H as [H|H].
    - injection H as <- <-. rewrite firstn_length, Nat.min_l by lia. repeat split; [lia|lia|]. intros i d I. rewrite Nat.sub_diag. cbn [Nat.add].
      rewrite <- (firstn_skipn n l) at 2. rewrite app_nth1 by (rewrite firstn_length; lia). reflexivity.
    - assert (E' : nsum rest = length (skipn n l)) by (rewrite skipn_length; unfold nsum in *; lia).
      destruct (IH (start + n) (skipn n l) E' s c H) as (S1 & S2 & S3). rewrite skipn_length in S2. repeat split; [lia|lia|].
      intros i d I. rewrite S3 by exact I. rewrite <- (firstn_skipn n l) at 2. rewrite app_nth2 by (rewrite firstn_length; lia). rewrite firstn_length, Nat.min_l by lia. f_equal. lia.
  Qed.
  Lemma split_at_cover sizes : forall start (l : list A), nsum sizes = length l ->
    forall i, start <= i < start + length l -> exists s c, In (s, c) (split_at start sizes l) /\ s <= i < s + length c.
  Proof.
    induction sizes as [|n rest IH]; intros start l E i I; cbn [nsum fold_right] in E; [lia|]. cbn [split_at].
    assert (N : n <= length l) by (unfold nsum in E; lia).
    destruct (le_lt_dec (start + n) i) as [G|G].
    - destruct (IH (start + n) (skipn n l)) with (i := i) as (s & c & H & B); [rewrite skipn_length; unfold nsum in *; lia | rewrite skipn_length; lia|].
      exists s, c. split; [right; exact H | exact B].
    - exists start, (firstn n l). split; [left; reflexivity|]. rewrite firstn_length. lia.
  Qed.
End Split.
Lemma NoDup_app_intro {A} (l m : list A) : NoDup l -> NoDup m -> (forall x, In x l -> In x m -> False) -> NoDup (l ++ m).
Proof.
  induction l as [|a l IH]; intros L M D; [exact M|]. inversion L; subst. cbn [app]. constructor.
  - rewrite in_app_iff. intros [H|H]; [contradiction | apply (D a); [left; reflexivity | exact H]].
  - apply IH; [assumption|assumption|]. intros x X Y. apply (D x); [right; exact X | exact Y].
Qed.
Definition cell (w : write) : nat * nat := (w_row w, w_col w).
Lemma column_length m s t dt : length (spa_column m s t dt) = spa_dims m.
Proof. destruct m; reflexivity. Qed.
(** the writes of one chunk *)
Lemma loop_in m s chunk : forall start w, In w (loop_writes m s start chunk) <->
  exists i t dt r, nth_error chunk i = Some (t, dt) /\ (r < spa_dims m)%nat /\ w = Write r (start + i) (nth r (spa_column m s t dt) NaN).
Proof.
  induction chunk as [|[t dt] rest IH]; intros start w; cbn [loop_writes].
  - split; [intros [] | intros (i & t & dt & r & E & _)]. destruct i; discriminate.
  - rewrite in_app_iff, IH, in_map_iff. split.
    + intros [((r & v) & <- & I) | (i & t' & dt' & r & E & R & ->)].
      * exists 0%nat, t, dt, r. pose proof (in_combine_l _ _ _ _ I) as I1. apply in_seq in I1. split; [reflexivity|]. split; [lia|]. cbn [fst snd]. rewrite Nat.add_0_r. f_equal.
        apply (In_nth _ _ (0%nat, NaN)) in I. destruct I as (j & J & E). rewrite combine_length, seq_length, column_length, Nat.min_id in J.
        rewrite combine_nth in E by (rewrite seq_length, column_length; reflexivity). rewrite seq_nth in E by exact J. injection E as <- <-. reflexivity.
      * exists (S i), t', dt', r. split; [exact E|]. split; [exact R|]. f_equal. lia.
    + intros (i & t' & dt' & r & E & R & ->). destruct i as [|i].
      * left. injection E as <- <-. exists (r, nth r (spa_column m s t dt) NaN). cbn [fst snd]. split; [f_equal; lia|].
        assert (X : (r, nth r (spa_column m s t dt) NaN) = nth r (combine (seq 0 (spa_dims m)) (spa_column m s t dt)) (0%nat, NaN)).
        { rewrite combine_nth by (rewrite seq_length, column_length; reflexivity). rewrite seq_nth by exact R. reflexivity. }
        rewrite X. apply nth_In. rewrite combine_length, seq_length, column_length, Nat.min_id. exact R.
      * right. exists i, t', dt', r. split; [exact E|]. split; [exact R|]. f_equal. lia.
Qed.
Lemma loop_once m s chunk : forall start, NoDup (map cell (loop_writes m s start chunk)) /\
  forall c, In c (map cell (loop_writes m s start chunk)) -> (start <= snd c < start + length chunk)%nat.
Proof.
  induction chunk as [|[t dt] rest IH]; intros start; cbn [loop_writes].
  - split; [constructor | intros c []].
  - destruct (IH (S start)) as [N B]. rewrite map_app, map_map. unfold cell at 1 3. cbn [w_row w_col fst snd].
    assert (E : map (fun p : nat * fl => (fst p, start)) (combine (seq 0 (spa_dims m)) (spa_column m s t dt)) = map (fun r => (r, start)) (seq 0 (spa_dims m))).
    { rewrite <- (map_map fst (fun r => (r, start))). f_equal.
      pose proof (column_length m s t dt) as L. revert L. generalize (spa_column m s t dt). generalize (spa_dims m). intros n l L.
      rewrite <- (seq_length n 0) in L. revert L. generalize (seq 0 n). intros q. revert l. induction q as [|a q IHq]; intros [|b l] L; try discriminate; [reflexivity|]. cbn. f_equal. apply IHq. injection L. auto. }
    split.
    + rewrite E. apply NoDup_app_intro.
      * apply Injective_map_NoDup; [intros a b H; injection H; auto | apply seq_NoDup].
      * exact N.
      * intros c H1 H2. apply B in H2. apply in_map_iff in H1. destruct H1 as (r & <- & _). cbn in H2. lia.
    + intros c H. rewrite E in H. apply in_app_iff in H. cbn [length]. destruct H as [H|H].
      * apply in_map_iff in H. destruct H as (r & <- & _). cbn. lia.
      * apply B in H. lia.
Qed.

(** the value the array version puts in a cell *)
Definition numpy_cell (m : spa_mode) (s : site) (samples : list (R * R)) (r c : nat) : fl := nth r (nth c (solar_position_numpy m s samples) []) NaN.
Lemma numpy_nth m s samples c t dt r : nth_error samples c = Some (t, dt) -> numpy_cell m s samples r c = nth r (spa_column m s t dt) NaN.
Proof.
  intros E. unfold numpy_cell, solar_position_numpy. rewrite (nth_error_nth (map _ samples) c (x := spa_column m s t dt)); [reflexivity|].
  rewrite nth_error_map, E. reflexivity.
Qed.
Definition chunks (samples : list (R * R)) (numthreads : nat) : list (nat * list (R * R)) :=
  let numthreads := if (length samples <? numthreads)%nat then length samples else numthreads in
  if (numthreads <=? 1)%nat then [(0%nat, samples)] else array_split samples numthreads.
Lemma threads_chunks m s samples n : numba_threads m s samples n = map (fun c => loop_writes m s (fst c) (snd c)) (chunks samples n).
Proof.
  unfold numba_threads, chunks. set (k := if (length samples <? n)%nat then length samples else n). destruct (k <=? 1)%nat; reflexivity.
Qed.
Lemma chunks_slice samples n s c : In (s, c) (chunks samples n) ->
  (s + length c <= length samples)%nat /\ forall i d, (i < length c)%nat -> nth i c d = nth (s + i) samples d.
Proof.
  unfold chunks. set (k := if (length samples <? n)%nat then length samples else n). destruct (Nat.leb_spec k 1) as [K|K].
  - intros [H|[]]. injection H as <- <-. split; [lia|]. reflexivity.
  - intros H. destruct (split_at_slice _ 0%nat samples (sizes_sum (length samples) k ltac:(lia)) s c H) as (_ & B & N). split; [lia|].
    intros i d I. rewrite N by exact I. f_equal. lia.
Qed.
Lemma chunks_cover samples n i : (i < length samples)%nat -> exists s c, In (s, c) (chunks samples n) /\ (s <= i < s + length c)%nat.
Proof.
  intros I. unfold chunks. set (k := if (length samples <? n)%nat then length samples else n). destruct (Nat.leb_spec k 1) as [K|K].
  - exists 0%nat, samples. split; [left; reflexivity | lia].
  - apply split_at_cover; [apply sizes_sum; lia | lia].
Qed.
(** every write of every thread puts the array version's value, and every cell is written *)
Lemma writes_correct m s samples n w : In w (concat (numba_threads m s samples n)) ->
  (w_row w < spa_dims m)%nat /\ (w_col w < length samples)%nat /\ w_val w = numpy_cell m s samples (w_row w) (w_col w).
Proof.
  rewrite threads_chunks. intros H. apply in_concat in H. destruct H as (ws & H & W). apply in_map_iff in H. destruct H as ([st c] & <- & H).
  cbn [fst snd] in W. apply loop_in in W. destruct W as (i & t & dt & r & E & R & ->). cbn [w_row w_col w_val].
  destruct (chunks_slice samples n st c H) as [B N]. assert (I : (i < length c)%nat) by (apply nth_error_Some; congruence).
  split; [exact R|]. split; [lia|]. symmetry. apply numpy_nth. 
  pose proof (N i (t, dt) I) as Q. rewrite (nth_error_nth c i (t, dt) E) in Q. rewrite Q. apply nth_error_nth'. lia.
Qed.
Lemma writes_cover m s samples n r c : (r < spa_dims m)%nat -> (c < length samples)%nat ->
  exists w, In w (concat (numba_threads m s samples n)) /\ w_row w = r /\ w_col w = c.
Proof.
  intros R C. rewrite threads_chunks. destruct (chunks_cover samples n c C) as (st & ch & H & B).
  destruct (nth_error ch (c - st)) as [[t dt]|] eqn:E; [|apply nth_error_None in E; lia].
  exists (Write r (st + (c - st)) (nth r (spa_column m s t dt) NaN)). split; [|split; cbn; lia].
  apply in_concat. exists (loop_writes m s st ch). split; [apply in_map_iff; exists (st, ch); split; [reflexivity | exact H]|].
  apply loop_in. exists (c - st)%nat, t, dt, r. repeat split; assumption.
Qed.
(** no cell is written twice, by one thread or by two *)
Lemma split_once m s sizes : forall start l, nsum sizes = length l ->
  NoDup (map cell (concat (map (fun c => loop_writes m s (fst c) (snd c)) (split_at start sizes l)))) /\
  forall x, In x (map cell (concat (map (fun c => loop_writes m s (fst c) (snd c)) (split_at start sizes l)))) -> (start <= snd x < start + length l)%nat.
Proof.
  induction sizes as [|n rest IH]; intros start l E; cbn [split_at map concat fst snd].
  - split; [constructor | intros x []].
  - cbn [nsum fold_right] in E. assert (N : (n <= length l)%nat) by (unfold nsum in E; lia).
    destruct (IH (start + n)%nat (skipn n l)) as [D B]; [rewrite skipn_length; unfold nsum in *; lia|]. rewrite skipn_length in B.
    destruct (loop_once m s (firstn n l) start) as [D1 B1]. rewrite firstn_length, Nat.min_l in B1 by exact N. rewrite map_app. split.
    + apply NoDup_app_intro; [exact D1 | exact D |]. intros x X Y. apply B1 in X. apply B in Y. lia.
    + intros x X. apply in_app_iff in X. destruct X as [X|X]; [apply B1 in X | apply B in X]; lia.
Qed.
Lemma threads_once m s samples n : NoDup (map cell (concat (numba_threads m s samples n))).
Proof.
  rewrite threads_chunks. unfold chunks. set (k := if (length samples <? n)%nat then length samples else n). destruct (Nat.leb_spec k 1) as [K|K].
  - cbn [map concat fst snd]. rewrite app_nil_r. apply loop_once.
  - apply split_once. apply sizes_sum. lia.
Qed.
(** schedules *)
Lemma inter_in {A} (ts : list (list A)) ws : interleaving ts ws -> forall w, In w ws <-> In w (concat ts).
Proof.
  induction 1 as [ts F | before w0 t after rest H IH]; intros w.
  - split; [intros []|]. intros I. apply in_concat in I. destruct I as (t & T & I). rewrite Forall_forall in F. rewrite (F t T) in I. exact I.
  - cbn [In]. rewrite IH, !concat_app. cbn [concat]. rewrite !in_app_iff. cbn [In]. tauto.
Qed.
Lemma inter_seq {A} (ts : list (list A)) : interleaving ts (concat ts).
Proof.
  assert (G : forall (done ts : list (list A)), Forall (fun t => t = []) done -> interleaving (done ++ ts) (concat ts)).
  { intros done ts0. revert done. induction ts0 as [|t ts0 IH]; intros done D.
    - cbn. apply inter_nil. rewrite app_nil_r. exact D.
    - induction t as [|w t IHt].
      + cbn [concat app]. replace (done ++ [] :: ts0) with ((done ++ [[]]) ++ ts0) by (rewrite <- app_assoc; reflexivity). apply IH.
        apply Forall_app. split; [exact D | constructor; [reflexivity | constructor]].
      + cbn [concat app]. apply inter_step. exact IHt. }
  apply (G [] ts). constructor.
Qed.
Lemma run_last ws : forall mem r c v, (forall w, In w ws -> w_row w = r -> w_col w = c -> w_val w = v) ->
  (exists w, In w ws /\ w_row w = r /\ w_col w = c) -> run mem ws r c = v.
Proof.
  assert (K : forall ws mem r c v, (forall w, In w ws -> w_row w = r -> w_col w = c -> w_val w = v) -> mem r c = v -> run mem ws r c = v).
  { intros ws1. induction ws1 as [|w0 ws' IH]; intros mem r c v H M; [exact M|]. cbn. apply IH; [intros w W; apply H; right; exact W|].
    unfold store. destruct (Nat.eqb_spec r (w_row w0)) as [R|R]; [|exact M]. destruct (Nat.eqb_spec c (w_col w0)) as [C|C]; [|exact M]. cbn. apply H; [left; reflexivity | auto | auto]. }
  induction ws as [|w0 ws' IH]; intros mem r c v H (w & W & R & C); [destruct W|]. destruct W as [<-|W].
  - cbn. apply K; [intros w' W'; apply H; right; exact W'|]. unfold store. rewrite R, C, !Nat.eqb_refl. cbn. apply H; [left; reflexivity | assumption | assumption].
  - cbn. apply IH; [intros w' W'; apply H; right; exact W' | exists w; auto].
Qed.

(** *** TT - UT *)
Lemma deltat_eq year month : calculate_deltat year month = deltat_piece year (IZR year + (month - 0.5) / 12).
Proof.
  unfold calculate_deltat, deltat_piece. cbv zeta. set (y := IZR year + (month - 0.5) / 12).
  assert (L : forall k : Z, Rltb (IZR year) (IZR k) = (year <? k)%Z).
  { intros k. destruct (Z.ltb_spec year k) as [H|H]; [apply Rltb_t, IZR_lt, H | apply Rltb_f, IZR_le, H]. }
  assert (G : forall k : Z, Rleb (IZR k) (IZR year) = negb (year <? k)%Z).
  { intros k. destruct (Z.ltb_spec year k) as [H|H]; [apply Rleb_f, IZR_lt, H | apply Rleb_t, IZR_le, H]. }
  rewrite !L, !G. clearbody y.
  Ltac dec_year year := repeat match goal with |- context [(year <? ?k)%Z] =>
    first [replace (year <? k)%Z with true by (symmetry; apply Z.ltb_lt; lia) | replace (year <? k)%Z with false by (symmetry; apply Z.ltb_ge; lia)] end; cbn [andb negb].
  Ltac fin_poly := unfold poly; cbn [fold_right]; simpl pow; lra.
  destruct (Z_lt_le_dec year (-500)); [dec_year year; fin_poly|]. destruct (Z_lt_le_dec year 500); [dec_year year; set (w := y / 100); fin_poly|].
  destruct (Z_lt_le_dec year 1600); [dec_year year; set (w := (y - 1000) / 100); fin_poly|].
  destruct (Z_lt_le_dec year 1700); [dec_year year; set (w := y - 1600); fin_poly|]. destruct (Z_lt_le_dec year 1800); [dec_year year; set (w := y - 1700); fin_poly|].
  destruct (Z_lt_le_dec year 1860); [dec_year year; set (w := y - 1800); fin_poly|]. destruct (Z_lt_le_dec year 1900); [dec_year year; set (w := y - 1860); fin_poly|].
  destruct (Z_lt_le_dec year 1920); [dec_year year; set (w := y - 1900); fin_poly|]. destruct (Z_lt_le_dec year 1941); [dec_year year; set (w := y - 1920); fin_poly|].
  destruct (Z_lt_le_dec year 1961); [dec_year year; set (w := y - 1950); fin_poly|]. destruct (Z_lt_le_dec year 1986); [dec_year year; set (w := y - 1975); fin_poly|].
  destruct (Z_lt_le_dec year 2005); [dec_year year; set (w := y - 2000); fin_poly|]. destruct (Z_lt_le_dec year 2050); [dec_year year; set (w := y - 2000); fin_poly|].
  destruct (Z_lt_le_dec year 2150); [dec_year year; set (w := (y - 1820) / 100); fin_poly|]. dec_year year. set (w := (y - 1820) / 100). fin_poly.
Qed.
(** *** calendars *)
Definition shift_year (year month : Z) : Z := if (month <=? 2)%Z then (year - 1)%Z else year.
Definition shift_month (month : Z) : Z := if (month <=? 2)%Z then (month + 12)%Z else month.
Lemma jdt_int year month day : (1583 <= year)%Z -> (1 <= month <= 12)%Z ->
  (Z.quot (1461 * (shift_year year month + 4716)) 4 + Z.quot (306001 * (shift_month month + 1)) 10000 + day - 1524
   + (2 - Z.quot (shift_year year month) 100 + Z.quot (Z.quot (shift_year year month) 100) 4) = gregorian_date year month day + 1721425)%Z.
Proof.
  intros Y M. unfold gregorian_date, gregorian_day, days_before_month, leap, shift_year, shift_month.
  assert (C : (month = 1 \/ month = 2 \/ month = 3 \/ month = 4 \/ month = 5 \/ month = 6 \/ month = 7 \/ month = 8 \/ month = 9 \/ month = 10 \/ month = 11 \/ month = 12)%Z) by lia.
  clear M. destruct C as [->|[->|[->|[->|[->|[->|[->|[->|[->|[->|[->| ->]]]]]]]]]]];
  match goal with |- context [nth ?a ?b ?c] => let v := eval vm_compute in (nth a b c) in change (nth a b c) with v end;
  match goal with |- context [(3 <=? ?k)%Z] => let v := eval vm_compute in (3 <=? k)%Z in change (3 <=? k)%Z with v end;
  repeat match goal with |- context [(?k <=? 2)%Z] => let v := eval vm_compute in (k <=? 2)%Z in change (k <=? 2)%Z with v end; cbv iota;
  match goal with |- context [Z.quot (306001 * ?x) 10000] => let v := eval vm_compute in (Z.quot (306001 * x) 10000) in change (Z.quot (306001 * x) 10000) with v end;
  rewrite ?andb_false_r, ?andb_true_r;
  first [Z.to_euclidean_division_equations; lia |
    destruct (Z.eqb_spec (year mod 4) 0), (Z.eqb_spec (year mod 100) 0), (Z.eqb_spec (year mod 400) 0); cbn [negb orb andb]; Z.to_euclidean_division_equations; lia].
Qed.
Lemma jdt_gregorian year month day hour minute second us : (1583 <= year)%Z -> (1 <= month <= 12)%Z -> (1 <= day <= 31)%Z ->
  0 <= IZR us / 1e6 + IZR (second + minute * 60 + hour * 3600) ->
  julian_day_dt year month day hour minute second us
  = IZR (gregorian_date year month day) + 1721424.5 + (IZR us / 1e6 + IZR (second + minute * 60 + hour * 3600)) / 86400.
Proof.
  intros Y M D F. unfold julian_day_dt. set (fr := IZR us / 1e6 + IZR (second + minute * 60 + hour * 3600)) in *.
  replace (if (month <=? 2)%Z then ((year - 1)%Z, (month + 12)%Z) else (year, month)) with (shift_year year month, shift_month month)
    by (unfold shift_year, shift_month; destruct (month <=? 2)%Z; reflexivity).
  cbv beta iota zeta. pose proof (jdt_int year month day Y M) as K.
  set (y' := shift_year year month) in *. set (m' := shift_month month) in *.
  assert (Y' : (1582 <= y')%Z) by (unfold y', shift_year; destruct (month <=? 2)%Z; lia).
  assert (M' : (3 <= m' <= 14 /\ (y' = 1582 -> 13 <= m'))%Z) by (unfold y', m', shift_year, shift_month; destruct (Z.leb_spec month 2); lia). 
  assert (G : (2299160 < Z.quot (1461 * (y' + 4716)) 4 + Z.quot (306001 * (m' + 1)) 10000 + day - 1525)%Z).
  { destruct M' as [M1 M2]. destruct (Z.eq_dec y' 1582) as [E|E].
    - rewrite E. specialize (M2 E). assert (Q : (428 <= Z.quot (306001 * (m' + 1)) 10000)%Z) by (Z.to_euclidean_division_equations; lia).
      change (Z.quot (1461 * (1582 + 4716)) 4) with 2300344%Z. lia.
    - assert (Q : (122 <= Z.quot (306001 * (m' + 1)) 10000)%Z) by (Z.to_euclidean_division_equations; lia).
      assert (Q2 : (2300709 <= Z.quot (1461 * (y' + 4716)) 4)%Z) by (Z.to_euclidean_division_equations; lia). lia. }
  set (A := Z.quot (1461 * (y' + 4716)) 4) in *. set (B := Z.quot (306001 * (m' + 1)) 10000) in *.
  apply IZR_lt in G. rewrite minus_IZR, !plus_IZR in G.
  assert (FR : fr * 1 / IZR (3600 * 24) = fr / 86400) by (change (3600 * 24)%Z with 86400%Z; field). rewrite FR.
  assert (FP : 0 <= fr / 86400) by (unfold Rdiv; apply Rmult_le_pos; lra).
  set (q := Z.quot y' 100) in *. set (b := (2 - q + Z.quot q 4)%Z) in *.
  rewrite Rltb_t by lra. replace (gregorian_date year month day) with (A + B + day - 1524 + b - 1721425)%Z by lia.
  rewrite !minus_IZR, !plus_IZR, minus_IZR, !plus_IZR. lra.
Qed.
