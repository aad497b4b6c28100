(** Lemmas: DIRINT binning. *)
From Verif Require Import Base.Fl Base.FlFacts Base.Py Spec.DirintBins Model.IrradTables Model.Atmosphere
  Model.Irradiance Model.IrradDecomp.
From Coq Require Import Arith Lia.
Open Scope R_scope.

Lemma in_co_fin x lo hi : in_co #x lo hi = (Rleb lo x && Rltb x hi)%bool.
Proof. reflexivity. Qed.

Ltac bin_solve :=
  match goal with |- in_edges ?e ?n ?x => eexists _, _; split; [reflexivity|split; [reflexivity|lra]] end.

Ltac decide_bins :=
  repeat match goal with
  | |- context [Rleb ?a ?b] => destruct (Rleb_spec a b); try lra
  | |- context [Rltb ?a ?b] => destruct (Rltb_spec a b); try lra
  | |- context [Reqb ?a ?b] => destruct (Reqb_spec a b); try lra
  end.


Lemma kt_bin_iff k n : kt_prime_bin #k = S n <-> kt_bin_spec k n.
Proof.
  unfold kt_prime_bin, where_. cbv zeta. rewrite !in_co_fin. autorewrite with flfin. unfold kt_bin_spec. split.
  - decide_bins; cbn [andb]; intros H; try discriminate H; injection H as <-;
    first [left; bin_solve | right; split; [reflexivity|lra]].
  - intros [(lo & hi & E1 & E2 & Hb)|[-> Hb]].
    + do 6 (destruct n as [|n]; [simpl in E1, E2; try discriminate E2; injection E1 as <-; injection E2 as <-; rdec; reflexivity|]).
      destruct n; discriminate E1.
    + rdec. reflexivity.
Qed.
Lemma zenith_bin_iff k n : zenith_bin #k = S n <-> zenith_bin_spec k n.
Proof.
  unfold zenith_bin, where_. cbv zeta. rewrite !in_co_fin. autorewrite with flfin. unfold zenith_bin_spec. split.
  - decide_bins; cbn [andb]; intros H; try discriminate H; injection H as <-;
    first [left; bin_solve | right; split; [reflexivity|lra]].
  - intros [(lo & hi & E1 & E2 & Hb)|[-> Hb]].
    + do 6 (destruct n as [|n]; [simpl in E1, E2; try discriminate E2; injection E1 as <-; injection E2 as <-; rdec; reflexivity|]).
      destruct n; discriminate E1.
    + rdec. reflexivity.
Qed.
Lemma w_bin_iff k n : w_bin #k = S n <-> w_bin_spec k n.
Proof.
  unfold w_bin, where_. cbv zeta. rewrite !in_co_fin. autorewrite with flfin. unfold w_bin_spec. split.
  - decide_bins; cbn [andb]; intros H; try discriminate H; injection H as <-;
    first [left; bin_solve | right; left; split; [reflexivity|lra] | right; right; split; [reflexivity|lra]].
  - intros [(lo & hi & E1 & E2 & Hb)|[[-> Hb]|[-> Hb]]].
    + do 4 (destruct n as [|n]; [simpl in E1, E2; try discriminate E2; injection E1 as <-; injection E2 as <-; rdec; reflexivity|]).
      destruct n; discriminate E1.
    + rdec. reflexivity.
    + rdec. reflexivity.
Qed.
Lemma dkt_bin_iff k n : delta_kt_prime_bin #k = S n <-> dkt_bin_spec k n.
Proof.
  unfold delta_kt_prime_bin, where_. cbv zeta. rewrite !in_co_fin. autorewrite with flfin. unfold dkt_bin_spec. split.
  - decide_bins; cbn [andb]; intros H; try discriminate H; injection H as <-;
    first [left; bin_solve | right; left; split; [reflexivity|lra] | right; right; split; [reflexivity|lra]].
  - intros [(lo & hi & E1 & E2 & Hb)|[[-> Hb]|[-> Hb]]].
    + do 6 (destruct n as [|n]; [simpl in E1, E2; try discriminate E2; injection E1 as <-; injection E2 as <-; rdec; reflexivity|]).
      destruct n; discriminate E1.
    + rdec. reflexivity.
    + rdec. reflexivity.
Qed.

(** ranges: some bin exactly inside the stated range *)
Lemma kt_bin_zero k : kt_prime_bin #k = 0%nat <-> ~ (0 <= k <= 1).
Proof.
  unfold kt_prime_bin, where_. cbv zeta. rewrite !in_co_fin. autorewrite with flfin.
  decide_bins; cbn [andb]; split; intros; try discriminate; try reflexivity; lra.
Qed.
Lemma zenith_bin_zero k : zenith_bin #k = 0%nat <-> ~ (0 <= k).
Proof.
  unfold zenith_bin, where_. cbv zeta. rewrite !in_co_fin. autorewrite with flfin.
  decide_bins; cbn [andb]; split; intros; try discriminate; try reflexivity; lra.
Qed.
Lemma w_bin_zero k : w_bin #k = 0%nat <-> ~ (0 <= k \/ k = -1).
Proof.
  unfold w_bin, where_. cbv zeta. rewrite !in_co_fin. autorewrite with flfin.
  decide_bins; cbn [andb]; split; intros; try discriminate; try reflexivity; lra.
Qed.
Lemma dkt_bin_zero k : delta_kt_prime_bin #k = 0%nat <-> ~ (0 <= k <= 1 \/ k = -1).
Proof.
  unfold delta_kt_prime_bin, where_. cbv zeta. rewrite !in_co_fin. autorewrite with flfin.
  decide_bins; cbn [andb]; split; intros; try discriminate; try reflexivity; lra.
Qed.

(** bounds for every input, also nan and infinities *)
Lemma kt_bin_le x : (kt_prime_bin x <= 6)%nat.
Proof.
  unfold kt_prime_bin, where_, in_co. cbv zeta.
  repeat match goal with |- context [if ?b then _ else _] => destruct b; try lia end.
Qed.
Lemma zenith_bin_le x : (zenith_bin x <= 6)%nat.
Proof.
  unfold zenith_bin, where_, in_co. cbv zeta.
  repeat match goal with |- context [if ?b then _ else _] => destruct b; try lia end.
Qed.
Lemma w_bin_le x : (w_bin x <= 5)%nat.
Proof.
  unfold w_bin, where_, in_co. cbv zeta.
  repeat match goal with |- context [if ?b then _ else _] => destruct b; try lia end.
Qed.
Lemma dkt_bin_le x : (delta_kt_prime_bin x <= 7)%nat.
Proof.
  unfold delta_kt_prime_bin, where_, in_co. cbv zeta.
  repeat match goal with |- context [if ?b then _ else _] => destruct b; try lia end.
Qed.

(** shape of the coefficient table *)
Lemma dirint_table_shape :
  length dirint_table = 6%nat /\
  Forall (fun t1 => length t1 = 6%nat /\
    Forall (fun t2 => length t2 = 7%nat /\ Forall (fun t3 => length t3 = 5%nat) t2) t1) dirint_table.
Proof. unfold dirint_table. repeat (constructor || reflexivity). Qed.

Lemma py_index_some {A} (l : list A) b : l <> [] -> (b <= length l)%nat -> exists x, py_index l b = Some x /\ In x l.
Proof.
  intros Hl Hb.
  assert (H : exists i, (i < length l)%nat /\ py_index l b = nth_error l i).
  { destruct b; simpl.
    - exists (length l - 1)%nat. split; [destruct l; [congruence|simpl; lia]|reflexivity].
    - exists b. split; [lia|reflexivity]. }
  destruct H as (i & Hi & ->). destruct (nth_error l i) as [x|] eqn:E.
  - exists x. split; [reflexivity|]. eapply nth_error_In; eauto.
  - apply nth_error_None in E. lia.
Qed.

Definition table_at (i j k l : nat) : option R :=
  match nth_error dirint_table i with
  | Some t1 => match nth_error t1 j with
  | Some t2 => match nth_error t2 k with
  | Some t3 => nth_error t3 l
  | None => None end | None => None end | None => None end.

Lemma dirint_coeff_total kt z w d :
  exists v, dirint_coeff kt z w d = Ok v /\
    (v = NaN <-> kt_prime_bin kt = 0%nat \/ zenith_bin z = 0%nat \/ w_bin w = 0%nat \/ delta_kt_prime_bin d = 0%nat) /\
    (forall i j k l, kt_prime_bin kt = S i -> zenith_bin z = S j -> delta_kt_prime_bin d = S k -> w_bin w = S l ->
       exists c, table_at i j k l = Some c /\ v = #c).
Proof.
  pose proof (kt_bin_le kt) as H1. pose proof (zenith_bin_le z) as H2.
  pose proof (w_bin_le w) as H3. pose proof (dkt_bin_le d) as H4.
  destruct dirint_table_shape as [L HF]. unfold dirint_coeff, table_at.
  set (kb := kt_prime_bin kt) in *. set (zb := zenith_bin z) in *. set (wb := w_bin w) in *.
  set (db := delta_kt_prime_bin d) in *. clearbody kb zb wb db.
  destruct (py_index_some dirint_table kb) as (t1 & E1 & I1); [intros E; rewrite E in L; discriminate|lia|].
  rewrite E1. rewrite Forall_forall in HF. destruct (HF t1 I1) as [L1 HF1].
  destruct (py_index_some t1 zb) as (t2 & E2 & I2); [intros E; rewrite E in L1; discriminate|lia|].
  rewrite E2. rewrite Forall_forall in HF1. destruct (HF1 t2 I2) as [L2 HF2].
  destruct (py_index_some t2 db) as (t3 & E3 & I3); [intros E; rewrite E in L2; discriminate|lia|].
  rewrite E3. rewrite Forall_forall in HF2. pose proof (HF2 t3 I3) as L3.
  destruct (py_index_some t3 wb) as (c & E4 & I4); [intros E; rewrite E in L3; discriminate|lia|].
  rewrite E4. eexists. split; [reflexivity|]. split.
  - unfold where_. destruct kb; [cbn; tauto|]. destruct zb; [cbn; tauto|].
    destruct wb; [cbn; tauto|]. destruct db; [cbn; tauto|]. cbn. split; [discriminate|].
    intros [H|[H|[H|H]]]; discriminate H.
  - intros i j k l -> -> -> ->. exists c. cbn in E1, E2, E3, E4. rewrite E1, E2, E3, E4. split; reflexivity.
Qed.

Lemma dirint_coeff_fin kt z w d :
  exists v, dirint_coeff #kt #z #w #d = Ok v /\
    (v = NaN <-> ~ (0 <= kt <= 1 /\ 0 <= z /\ (0 <= w \/ w = -1) /\ (0 <= d <= 1 \/ d = -1))) /\
    (forall i j k l, kt_bin_spec kt i -> zenith_bin_spec z j -> dkt_bin_spec d k -> w_bin_spec w l ->
       exists c, table_at i j k l = Some c /\ v = #c).
Proof.
  destruct (dirint_coeff_total #kt #z #w #d) as (v & E & Hn & Ht). exists v. split; [exact E|]. split.
  - rewrite Hn, kt_bin_zero, zenith_bin_zero, w_bin_zero, dkt_bin_zero.
    destruct (Rle_dec 0 kt), (Rle_dec kt 1), (Rle_dec 0 z), (Rle_dec 0 w), (Rle_dec 0 d), (Rle_dec d 1),
      (Req_dec w (-1)), (Req_dec d (-1)); tauto.
  - intros i j k l A B C D. apply Ht; [apply kt_bin_iff|apply zenith_bin_iff|apply dkt_bin_iff|apply w_bin_iff]; auto.
Qed.

Lemma dirint_coeff_special :
  kt_prime_bin NaN = 0%nat /\ zenith_bin NaN = 0%nat /\ w_bin NaN = 0%nat /\ delta_kt_prime_bin NaN = 0%nat.
Proof. repeat split. Qed.

(** existence and uniqueness of the interval inside the range *)
Lemma kt_bin_ex k : 0 <= k <= 1 -> exists! n, kt_bin_spec k n.
Proof.
  intros H. destruct (kt_prime_bin #k) as [|n] eqn:E; [apply kt_bin_zero in E; tauto|].
  exists n. split; [apply kt_bin_iff, E|]. intros m Hm. apply kt_bin_iff in Hm. congruence.
Qed.
Lemma zenith_bin_ex k : 0 <= k -> exists! n, zenith_bin_spec k n.
Proof.
  intros H. destruct (zenith_bin #k) as [|n] eqn:E; [apply zenith_bin_zero in E; tauto|].
  exists n. split; [apply zenith_bin_iff, E|]. intros m Hm. apply zenith_bin_iff in Hm. congruence.
Qed.
Lemma w_bin_ex k : 0 <= k \/ k = -1 -> exists! n, w_bin_spec k n.
Proof.
  intros H. destruct (w_bin #k) as [|n] eqn:E; [apply w_bin_zero in E; tauto|].
  exists n. split; [apply w_bin_iff, E|]. intros m Hm. apply w_bin_iff in Hm. congruence.
Qed.
Lemma dkt_bin_ex k : 0 <= k <= 1 \/ k = -1 -> exists! n, dkt_bin_spec k n.
Proof.
  intros H. destruct (delta_kt_prime_bin #k) as [|n] eqn:E; [apply dkt_bin_zero in E; tauto|].
  exists n. split; [apply dkt_bin_iff, E|]. intros m Hm. apply dkt_bin_iff in Hm. congruence.
Qed.

(** ** the stability index: mean absolute change to the neighbours that exist *)
Lemma delta_kt_length l b : length (delta_kt_prime_dirint l b) = length l.
Proof. unfold delta_kt_prime_dirint. destruct b; rewrite map_length; [apply seq_length|reflexivity]. Qed.
Lemma delta_kt_off l : delta_kt_prime_dirint l false = map (fun _ => #(-1)) l.
Proof. reflexivity. Qed.
Lemma delta_kt_nth l i : (i < length l)%nat ->
  nth i (delta_kt_prime_dirint l true) NaN =
  nanmean [fabs (fsub (nth i l NaN) (nth (S i) l NaN));
           fabs (fsub (nth i l NaN) (match i with O => NaN | S j => nth j l NaN end))].
Proof.
  intros H. unfold delta_kt_prime_dirint. cbv zeta.
  set (g := fun i : nat => _).
  rewrite (nth_indep _ NaN (g 0%nat)) by (rewrite map_length, seq_length; exact H).
  rewrite map_nth, seq_nth by exact H. reflexivity.
Qed.
(** interior point of a finite series: mean of the two absolute differences *)
Lemma delta_kt_interior (l : list R) i a b c :
  nth_error l i = Some a -> nth_error l (S i) = Some b -> nth_error l (S (S i)) = Some c ->
  nth (S i) (delta_kt_prime_dirint (map Fin l) true) NaN = #((Rabs (b - c) + Rabs (b - a)) / 2).
Proof.
  intros Ha Hb Hc.
  assert (L : (S (S i) < length l)%nat) by (apply nth_error_Some; congruence).
  rewrite delta_kt_nth by (rewrite map_length; lia).
  assert (E : forall j x, nth_error l j = Some x -> nth j (map Fin l) NaN = #x).
  { intros j x Hj. apply nth_error_nth. rewrite nth_error_map, Hj. reflexivity. }
  rewrite (E _ _ Ha), (E _ _ Hb), (E _ _ Hc). unfold nanmean. cbn [fabs fsub fadd fneg filter isnan negb fsum fold_left length].
  simpl INR. rewrite fdiv_fin by lra. f_equal. unfold Rminus. lra.
Qed.
Lemma delta_kt_first (l : list R) b c :
  nth_error l 0 = Some b -> nth_error l 1 = Some c ->
  nth 0 (delta_kt_prime_dirint (map Fin l) true) NaN = #(Rabs (b - c)).
Proof.
  intros Hb Hc.
  assert (L : (1 < length l)%nat) by (apply nth_error_Some; congruence).
  rewrite delta_kt_nth by (rewrite map_length; lia).
  assert (E : forall j x, nth_error l j = Some x -> nth j (map Fin l) NaN = #x).
  { intros j x Hj. apply nth_error_nth. rewrite nth_error_map, Hj. reflexivity. }
  rewrite (E _ _ Hb), (E _ _ Hc). unfold nanmean. cbn [fabs fsub fadd fneg filter isnan negb fsum fold_left length].
  simpl INR. rewrite fdiv_fin by lra. f_equal. unfold Rminus. lra.
Qed.

(** ** extraterrestrial radiation *)
Lemma asce_factor_fin doy : asce_factor #doy = #(1 + 0.033 * cos (2 * PI * doy / 365)).
Proof.
  unfold asce_factor, calculate_simple_day_angle. fin. do 4 f_equal. field.
Qed.
Lemma spencer_factor_fin doy : let B := 2 * PI * (doy - 1) / 365 in
  spencer_factor #doy = #(1.00011 + 0.034221 * cos B + 0.00128 * sin B + 0.000719 * cos (2 * B) + 7.7e-05 * sin (2 * B)).
Proof.
  intros B. unfold spencer_factor, calculate_simple_day_angle. fin.
  replace (2 * PI / 365 * (doy - 1)) with B by (unfold B; field). reflexivity.
Qed.
Lemma extra_radiation_asce p q doy sc :
  exists v, get_extra_radiation p q #doy #sc "asce" = Ok #v /\
    v = sc * (1 + 0.033 * cos (2 * PI * doy / 365)) /\
    (0 <= sc -> 0.967 * sc <= v <= 1.033 * sc).
Proof.
  eexists. unfold get_extra_radiation. cbn [lower String.eqb]. simpl String.eqb. cbv iota zeta.
  rewrite asce_factor_fin. fin. split; [reflexivity|]. split; [reflexivity|].
  intros H. pose proof (COS_bound (2 * PI * doy / 365)). nra.
Qed.
Lemma extra_radiation_spencer p q doy sc :
  let B := 2 * PI * (doy - 1) / 365 in
  exists v, get_extra_radiation p q #doy #sc "spencer" = Ok #v /\
    v = sc * (1.00011 + 0.034221 * cos B + 0.00128 * sin B + 0.000719 * cos (2 * B) + 7.7e-05 * sin (2 * B)) /\
    (0 <= sc -> 0.963 * sc <= v <= 1.037 * sc).
Proof.
  intros B. eexists. unfold get_extra_radiation. simpl String.eqb. cbv iota zeta.
  rewrite spencer_factor_fin. fin. split; [reflexivity|]. split; [reflexivity|].
  intros H. fold B. pose proof (COS_bound B). pose proof (SIN_bound B).
  pose proof (COS_bound (2 * B)). pose proof (SIN_bound (2 * B)). nra.
Qed.
Lemma extra_radiation_period p q doy sc m :
  m = "asce"%string \/ m = "spencer"%string ->
  get_extra_radiation p q #(doy + 365) #sc m = get_extra_radiation p q #doy #sc m.
Proof.
  assert (P : forall x, cos (x + 2 * PI) = cos x /\ sin (x + 2 * PI) = sin x).
  { intros x. rewrite cos_plus, sin_plus, cos_2PI, sin_2PI. lra. }
  intros [->| ->]; unfold get_extra_radiation; simpl String.eqb; cbv iota zeta.
  - rewrite !asce_factor_fin. replace (2 * PI * (doy + 365) / 365) with (2 * PI * doy / 365 + 2 * PI) by field.
    rewrite (proj1 (P _)). reflexivity.
  - rewrite !spencer_factor_fin.
    replace (2 * PI * (doy + 365 - 1) / 365) with (2 * PI * (doy - 1) / 365 + 2 * PI) by field.
    set (B := 2 * PI * (doy - 1) / 365). rewrite (proj1 (P _)), (proj2 (P _)).
    replace (2 * (B + 2 * PI)) with (2 * B + 2 * PI + 2 * PI) by ring.
    rewrite !(proj1 (P _)), !(proj2 (P _)). reflexivity.
Qed.
Lemma extra_radiation_distance p q doy sc d :
  (p doy = #d -> d <> 0 -> get_extra_radiation p q doy #sc "pyephem" = Ok #(sc / d ^ 2)) /\
  (q doy = #d -> d <> 0 -> get_extra_radiation p q doy #sc "nrel" = Ok #(sc / d ^ 2)).
Proof.
  assert (forall d, d <> 0 -> d ^ 2 <> 0) by (intros; apply pow_nonzero; auto).
  split; intros E Hd; unfold get_extra_radiation; simpl String.eqb; cbv iota zeta; rewrite E;
  rewrite fpown_fin, fdiv_fin by auto; fin; do 2 f_equal; field; auto.
Qed.
Lemma extra_radiation_error p q doy sc m e :
  get_extra_radiation p q doy sc m = Err e <->
  e = ValueError /\ ~ In (lower m) ["asce"; "spencer"; "pyephem"; "nrel"]%string.
Proof.
  unfold get_extra_radiation. cbv zeta. set (s := lower m). clearbody s.
  destruct (String.eqb_spec s "asce"); [subst; split; [discriminate|simpl; tauto]|].
  destruct (String.eqb_spec s "spencer"); [subst; split; [discriminate|simpl; tauto]|].
  destruct (String.eqb_spec s "pyephem"); [subst; split; [discriminate|simpl; tauto]|].
  destruct (String.eqb_spec s "nrel"); [subst; split; [discriminate|simpl; tauto]|].
  split; [intros [= <-]; split; [reflexivity|]|intros [-> _]; reflexivity].
  intros [H|[H|[H|[H|[]]]]]; congruence.
Qed.
