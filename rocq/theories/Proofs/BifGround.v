(** Shadows of the rows on the ground. *)
From Coquelicot Require Import Coquelicot.
From Verif Require Import Base.Fl Base.FlFacts Base.Py Base.Trig Model.Bifacial Spec.BifacialSpec Proofs.PvsystemP Proofs.Invert Proofs.BifRow Proofs.BifShade.
From Coq Require Import Psatz ZArith Classical.
Open Scope R_scope.

Lemma shades_iff th ph w h p k s : shades th w h p ph k s <-> lo_of th ph w h p (IZR k) <= s <= hi_of th ph w h p (IZR k).
Proof.
  unfold shades, sheds_point, lo_of, hi_of, half_len. cbn [fst snd]. set (Z := w * cosD th + w * sinD th * tanD ph). set (m := IZR k * p + h * tanD ph). split.
  - intros (t & Ht & ->).
    replace (IZR k * p + t * w * cosD th + (h + t * w * sinD th) * tanD ph) with (m + t * Z) by (unfold m, Z; ring).
    assert (Rabs (t * Z) <= Rabs Z / 2).
    { rewrite Rabs_mult. assert (Rabs t <= / 2) by (apply Rabs_le; lra). assert (0 <= (/ 2 - Rabs t) * Rabs Z) by (apply Rmult_le_pos; [lra|apply Rabs_pos]). lra. }
    apply Rabs_le_between in H. lra.
  - intros Hs. destruct (Req_dec Z 0) as [E|E].
    + exists 0. split; [lra|]. rewrite E, Rabs_R0 in Hs. unfold m in Hs. lra.
    + exists ((s - m) / Z). split.
      * assert (Rabs ((s - m) / Z) <= / 2).
        { unfold Rdiv. rewrite Rabs_mult, Rabs_inv by exact E. assert (0 < Rabs Z) by (apply Rabs_pos_lt, E). apply Rmult_le_reg_r with (Rabs Z); [assumption|].
          rewrite Rmult_assoc, Rinv_l by lra. assert (Rabs (s - m) <= Rabs Z / 2) by (apply Rabs_le; lra). lra. }
        apply Rabs_le_between in H. lra.
      * replace (IZR k * p + (s - m) / Z * w * cosD th + (h + (s - m) / Z * w * sinD th) * tanD ph) with (m + (s - m) / Z * Z) by (unfold m, Z; ring). field. exact E.
Qed.

(** the integral of the indicator of an interval *)
Definition ind (l h s : R) : R := if Rle_dec l s then if Rle_dec s h then 1 else 0 else 0.
Lemma const_int a b c : is_RInt (fun _ => c) a b (c * (b - a)).
Proof. replace (c * (b - a)) with (scal (b - a) c) by (unfold scal; cbn; unfold mult; cbn; ring). apply is_RInt_const. Qed.
Lemma ind_int l h a b : a <= b -> l <= h -> is_RInt (ind l h) a b (overlap l h a b).
Proof.
  intros Hab Hlh. set (x := Rmin (Rmax l a) b). set (y := Rmax x (Rmin h b)).
  assert (OV : overlap l h a b = y - x) by (unfold overlap, y, x; unfold Rmax, Rmin; repeat destruct Rle_dec; lra).
  assert (Bx : a <= x <= b) by (unfold x; unfold Rmax, Rmin; repeat destruct Rle_dec; lra).
  assert (By : x <= y <= b) by (unfold y, x; unfold Rmax, Rmin; repeat destruct Rle_dec; lra).
  replace (overlap l h a b) with (plus (0 * (x - a)) (plus (1 * (y - x)) (0 * (b - y)))) by (rewrite OV; unfold plus; cbn; ring).
  apply (is_RInt_Chasles (V := R_NormedModule) _ a x b); [|apply (is_RInt_Chasles (V := R_NormedModule) _ x y b)].
  - apply (is_RInt_ext (fun _ => 0)); [|apply const_int]. rewrite Rmin_left, Rmax_right by lra. intros s Hs. unfold ind.
    destruct (Rle_dec l s); [|reflexivity]. destruct (Rle_dec s h); [|reflexivity]. exfalso. unfold x in Hs. unfold Rmax, Rmin in Hs; repeat destruct Rle_dec; lra.
  - apply (is_RInt_ext (fun _ => 1)); [|apply const_int]. rewrite Rmin_left, Rmax_right by lra. intros s Hs. unfold ind.
    unfold y, x in Hs. destruct (Rle_dec l s); [destruct (Rle_dec s h); [reflexivity|]|]; exfalso; unfold Rmax, Rmin in Hs; repeat destruct Rle_dec; lra.
  - apply (is_RInt_ext (fun _ => 0)); [|apply const_int]. rewrite Rmin_left, Rmax_right by lra. intros s Hs. unfold ind.
    destruct (Rle_dec l s); [|reflexivity]. destruct (Rle_dec s h); [|reflexivity]. exfalso. unfold y, x in Hs. unfold Rmax, Rmin in Hs; repeat destruct Rle_dec; lra.
Qed.
Definition rsum (l : list R) : R := fold_right Rplus 0 l.
Lemma sum_int {A} (F : A -> R -> R) (v : A -> R) (l : list A) a b : (forall i, In i l -> is_RInt (F i) a b (v i)) ->
  is_RInt (fun s => rsum (map (fun i => F i s) l)) a b (rsum (map v l)).
Proof.
  induction l as [|i l IH]; intros H; cbn [map rsum fold_right].
  - pose proof (const_int a b 0) as Z. rewrite Rmult_0_l in Z. exact Z.
  - apply (is_RInt_plus (V := R_NormedModule) (F i)). + apply H. left; reflexivity. + apply IH. intros j Hj. apply H. right; exact Hj.
Qed.
Lemma fsum_fin {A} (f : A -> fl) (g : A -> R) l : (forall i, In i l -> f i = #(g i)) -> fsum (map f l) = #(rsum (map g l)).
Proof.
  induction l as [|i l IH]; intros H; [reflexivity|]. cbn [map rsum fold_right]. rewrite Invert.fsum_cons, H by (left; reflexivity). rewrite IH by (intros j Hj; apply H; right; exact Hj). reflexivity.
Qed.
Lemma rsum_ext {A} (f g : A -> R) l : (forall i, In i l -> f i = g i) -> rsum (map f l) = rsum (map g l).
Proof. induction l as [|i l IH]; intros H; [reflexivity|]. cbn [map rsum fold_right]. rewrite (H i) by (left; reflexivity). f_equal. apply IH. intros j Hj. apply H. right; exact Hj. Qed.
Lemma rsum_div {A} (f : A -> R) c l : rsum (map (fun i => f i / c) l) = rsum (map f l) / c.
Proof. induction l as [|i l IH]; cbn [map rsum fold_right]; [unfold Rdiv; ring|]. unfold rsum in IH. rewrite IH. unfold Rdiv. ring. Qed.
Lemma rsum_zero {A} (f : A -> R) l : (forall i, In i l -> f i = 0) -> rsum (map f l) = 0.
Proof. induction l as [|i l IH]; intros H; [reflexivity|]. cbn [map rsum fold_right]. rewrite H by (left; reflexivity). rewrite Rplus_0_l. apply IH. intros j Hj. apply H. right; exact Hj. Qed.
Lemma rsum_one {A} (f : A -> R) l i : NoDup l -> In i l -> f i = 1 -> (forall j, In j l -> j <> i -> f j = 0) -> rsum (map f l) = 1.
Proof.
  induction l as [|j l IH]; intros D I E Z; [destruct I|]. inversion D as [|? ? N D']; subst. cbn [map rsum fold_right]. destruct I as [->|I].
  - rewrite E. assert (rsum (map f l) = 0) as K. { apply rsum_zero. intros k Hk. apply Z; [right; exact Hk|]. intros ->. contradiction. } unfold rsum in K. rewrite K. ring.
  - rewrite (Z j) by (solve [left; reflexivity] || intros ->; contradiction). rewrite Rplus_0_l. apply IH; auto. intros k Hk Nk. apply Z; [right; exact Hk|exact Nk].
Qed.

(** the numbers of the rows that are considered *)
Definition zrange (lo : Z) (n : nat) : list Z := map (fun i => (lo + Z.of_nat i)%Z) (seq 0 n).
Lemma arange_z {B} (f : fl -> B) lo n : map f (arange lo n) = map (fun k => f #(IZR k)) (zrange lo n).
Proof. unfold arange, zrange. rewrite !map_map. reflexivity. Qed.
Lemma zrange_in lo n k : In k (zrange lo n) <-> (lo <= k < lo + Z.of_nat n)%Z.
Proof.
  unfold zrange. rewrite in_map_iff. split.
  - intros (i & <- & Hi). apply in_seq in Hi. lia.
  - intros H. exists (Z.to_nat (k - lo)). split; [lia|]. apply in_seq. lia.
Qed.
Lemma zrange_nodup lo n : NoDup (zrange lo n).
Proof. unfold zrange. apply FinFun.Injective_map_NoDup; [intros i j; lia|apply seq_NoDup]. Qed.
Lemma zrange_cons lo n : zrange lo (S n) = lo :: zrange (lo + 1) n.
Proof. unfold zrange. cbn [seq map]. f_equal; [lia|]. rewrite <- seq_shift, map_map. apply map_ext. intros i. lia. Qed.

Section Rows.
  Context (lo hi p : R) (Hp : 0 < p) (Hlh : lo <= hi).
  Let l k := IZR k * p + lo.
  Let h k := IZR k * p + hi.
  (** overlapping shadows leave nothing between the first and the last *)
  Lemma chain_cover a b k n : a <= b -> p <= hi - lo ->
    overlap (l k) (h (k + Z.of_nat n)) a b <= rsum (map (fun j => overlap (l j) (h j) a b) (zrange k (S n))).
  Proof.
    intros Hab Hc. revert k. induction n as [|n IH]; intros k; rewrite zrange_cons; cbn [map rsum fold_right].
    - cbn [zrange seq map fold_right]. replace (k + Z.of_nat 0)%Z with k by lia. lra.
    - specialize (IH (k + 1)%Z). change (fold_right Rplus 0) with rsum. eapply Rle_trans; [|apply Rplus_le_compat_l; exact IH].
      replace (k + Z.of_nat (S n))%Z with (k + 1 + Z.of_nat n)%Z by lia. unfold overlap.
      assert (l (k + 1) <= h k) by (unfold l, h; rewrite plus_IZR; lra). assert (l k <= l (k + 1)) by (unfold l; rewrite plus_IZR; lra).
      assert (h k <= h (k + 1 + Z.of_nat n)) by (unfold h; rewrite !plus_IZR; pose proof (IZR_le 0 (Z.of_nat n) ltac:(lia)); nra).
      generalize dependent (h (k + 1 + Z.of_nat n)). intros. unfold Rmax, Rmin; repeat destruct Rle_dec; lra.
  Qed.
  (** whole-pitch segments: the same shadow seen from every cell *)
  Lemma cells_sum k n : rsum (map (fun j => overlap (l j) (h j) 0 p) (zrange k n)) = overlap lo hi (- IZR (k + Z.of_nat n - 1) * p) (- IZR k * p + p).
  Proof.
    revert k. induction n as [|n IH]; intros k.
    - cbn. replace (k + 0 - 1)%Z with (k - 1)%Z by lia. rewrite minus_IZR. unfold overlap, Rmax, Rmin; repeat destruct Rle_dec; try lra.
    - rewrite zrange_cons. cbn [map rsum fold_right]. change (fold_right Rplus 0) with rsum. rewrite IH. replace (k + 1 + Z.of_nat n - 1)%Z with (k + Z.of_nat (S n) - 1)%Z by lia.
      rewrite plus_IZR. assert (E : IZR (k + Z.of_nat (S n) - 1) = IZR k + IZR (Z.of_nat n)) by (rewrite <- plus_IZR; f_equal; lia). rewrite E.
      assert (0 <= IZR (Z.of_nat n) * p) by (apply Rmult_le_pos; [apply (IZR_le 0); lia|lra]). set (N := IZR (Z.of_nat n)) in *. clearbody N.
      replace (- (IZR k + N) * p) with (- IZR k * p - N * p) by ring. replace (- (IZR k + 1) * p) with (- IZR k * p - p) by ring. unfold l, h. set (K := IZR k * p) in *.
      replace (- IZR k * p) with (- K) by (unfold K; ring). set (Np := N * p) in *. clearbody K Np.
      unfold overlap, Rmax, Rmin; repeat destruct Rle_dec; lra.
  Qed.
  Lemma disjoint_rows j k s : hi - lo < p -> l j <= s <= h j -> l k <= s <= h k -> j = k.
  Proof.
    intros H A B. unfold l, h in *. destruct (Z.lt_trichotomy j k) as [K|[K|K]]; [|exact K|]; exfalso.
    - assert (IZR j + 1 <= IZR k) by (rewrite <- plus_IZR; apply IZR_le; lia). nra.
    - assert (IZR k + 1 <= IZR j) by (rewrite <- plus_IZR; apply IZR_le; lia). nra.
  Qed.
  Lemma covering_row s : p <= hi - lo -> exists k, l k <= s <= h k.
  Proof.
    intros H. exists (Int_part ((s - lo) / p)). destruct (base_Int_part ((s - lo) / p)) as [A B]. unfold l, h. set (q := IZR (Int_part ((s - lo) / p))) in *.
    assert (E : s - lo = (s - lo) / p * p) by (field; lra). set (r := (s - lo) / p) in *. clearbody q r. assert (q * p <= r * p) by (apply Rmult_le_compat_r; lra). assert (r * p <= (q + 1) * p) by (apply Rmult_le_compat_r; lra). lra.
  Qed.
  Lemma rows_lit a b (N : nat) (lit : R -> R) : a < b -> l (- Z.of_nat N) <= a -> b <= h (Z.of_nat N + 1) ->
    (forall s, a <= s <= b -> (exists k, l k <= s <= h k) -> lit s = 0) ->
    (forall s, a <= s <= b -> ~ (exists k, l k <= s <= h k) -> lit s = 1) ->
    let S := rsum (map (fun j => overlap (l j) (h j) a b) (zrange (- Z.of_nat N) (2 * N + 2))) in
    is_RInt lit a b ((b - a) * (1 - Rmin (Rmax (S / (b - a)) 0) 1)).
  Proof.
    intros Hab H1 H2 L0 L1 S.
    assert (S0 : 0 <= S). { unfold S. generalize (zrange (- Z.of_nat N) (2 * N + 2)). intros z. induction z as [|k z IH]; cbn [map rsum fold_right]; [lra|]. unfold rsum in IH. unfold overlap at 1. pose proof (Rmax_l 0 (Rmin (h k) b - Rmax (l k) a)). lra. }
    assert (Q0 : 0 <= S / (b - a)) by (apply Rdiv_le_0_compat; lra). rewrite (Rmax_left (S / (b - a))) by lra.
    destruct (Rle_dec p (hi - lo)) as [C|C].
    - assert (S1 : b - a <= S).
      { unfold S. replace (2 * N + 2)%nat with (Datatypes.S (2 * N + 1)) by lia. eapply Rle_trans; [|apply chain_cover; [lra|exact C]].
        replace (- Z.of_nat N + Z.of_nat (2 * N + 1))%Z with (Z.of_nat N + 1)%Z by lia. unfold overlap. rewrite Rmin_right, (Rmax_right (l _) a) by assumption. apply Rmax_r. }
      rewrite Rmin_right by (apply Rmult_le_reg_r with (b - a); [lra|]; unfold Rdiv; rewrite Rmult_assoc, Rinv_l by lra; lra).
      apply (is_RInt_ext (fun _ => 0)). 2:{ replace ((b - a) * (1 - 1)) with (0 * (b - a)) by ring. apply const_int. }
      rewrite Rmin_left, Rmax_right by lra. intros s Hs. symmetry. apply L0; [lra|]. apply covering_row, C.
    - assert (D : hi - lo < p) by lra.
      assert (I : is_RInt (fun s => 1 - rsum (map (fun j => ind (l j) (h j) s) (zrange (- Z.of_nat N) (2 * N + 2)))) a b ((b - a) - S)).
      { apply (is_RInt_minus (V := R_NormedModule) (fun _ => 1)); [pose proof (const_int a b 1) as Z; rewrite Rmult_1_l in Z; exact Z|]. unfold S. apply (sum_int (fun j => ind (l j) (h j))). intros k _. apply ind_int; [lra|]. unfold l, h. lra. }
      assert (IL : is_RInt lit a b ((b - a) - S)).
      { apply (is_RInt_ext _ lit _ _ _) in I; [exact I|]. rewrite Rmin_left, Rmax_right by lra. intros s Hs.
        destruct (classic (exists k, l k <= s <= h k)) as [[k Hk]|NK].
        - rewrite L0 by (lra || (exists k; exact Hk)).
          assert (In k (zrange (- Z.of_nat N) (2 * N + 2))).
          { apply zrange_in. assert (Hk' := Hk). unfold l, h in Hk', H1, H2. rewrite opp_IZR in H1. rewrite plus_IZR in H2. split.
            - apply Z.nlt_ge. intros K. assert (IZR k + 1 <= - IZR (Z.of_nat N)) by (rewrite <- opp_IZR, <- plus_IZR; apply IZR_le; lia). nra.
            - apply Z.nle_gt. intros K. assert (IZR (Z.of_nat N) + 2 <= IZR k) by (rewrite <- plus_IZR; apply IZR_le; lia). nra. }
          apply Rminus_diag_eq, eq_sym, (rsum_one _ _ k); [apply zrange_nodup|assumption| |].
          + unfold ind. destruct (Rle_dec (l k) s); [|lra]. destruct (Rle_dec s (h k)); [reflexivity|lra].
          + intros j _ Nj. unfold ind. destruct (Rle_dec (l j) s); [|reflexivity]. destruct (Rle_dec s (h j)); [|reflexivity]. exfalso. apply Nj. apply (disjoint_rows j k s); [assumption|lra|exact Hk].
        - rewrite L1 by (lra || exact NK). rewrite rsum_zero; [apply Rminus_0_r|]. intros j _. unfold ind. destruct (Rle_dec (l j) s); [|reflexivity]. destruct (Rle_dec s (h j)); [|reflexivity]. exfalso. apply NK. exists j. lra. }
      assert (G : 0 <= (b - a) - S).
      { apply (is_RInt_ge_0 lit a b); [lra|exact IL|]. intros s Hs. destruct (classic (exists k, l k <= s <= h k)) as [K|K]; [rewrite L0 by (lra || exact K); lra|rewrite L1 by (lra || exact K); lra]. }
      rewrite Rmin_left by (apply Rmult_le_reg_r with (b - a); [lra|]; unfold Rdiv; rewrite Rmult_assoc, Rinv_l by lra; lra).
      replace ((b - a) * (1 - S / (b - a))) with ((b - a) - S) by (field; lra). exact IL.
  Qed.
End Rows.
Lemma half_len_pos th ph w : 0 <= half_len th ph w. Proof. unfold half_len. pose proof (Rabs_pos (w * cosD th + w * sinD th * tanD ph)). lra. Qed.
Lemma segment_fin th ph g h p (N : nat) mz g0 g1 : cosD ph <> 0 -> 0 < p -> g0 < g1 -> Rabs ph <= mz ->
  unshaded_ground_segment #th #ph #g #h #p N #mz #g0 #g1 =
  #(1 - Rmin (Rmax (rsum (map (fun k => overlap (lo_of th ph (p * g) h p (IZR k)) (hi_of th ph (p * g) h p (IZR k)) (g0 * p) (g1 * p))
       (zrange (- Z.of_nat N) (2 * N + 2))) / (g1 * p - g0 * p)) 0) 1).
Proof.
  intros Hc Hp Hg Hz. unfold unshaded_ground_segment. rewrite !fmul_fin, fabs_fin, fgtb_fin, Rltb_f by exact Hz. unfold where_. rewrite arange_z.
  assert (AB : g0 * p < g1 * p) by (apply Rmult_lt_compat_r; lra).
  rewrite (fsum_fin _ (fun k => overlap (lo_of th ph (p * g) h p (IZR k)) (hi_of th ph (p * g) h p (IZR k)) (g0 * p) (g1 * p) / (g1 * p - g0 * p))).
  - rewrite fclip_fin, fsub_fin, rsum_div. reflexivity.
  - intros k _. apply row_shade_fin; assumption.
Qed.
Lemma segment_lit th ph g h p (N : nat) mz g0 g1 (lit : R -> R) : cosD ph <> 0 -> 0 < p -> g0 < g1 -> Rabs ph <= mz ->
  (exists s, s <= g0 * p /\ shades th (p * g) h p ph (- Z.of_nat N) s) -> (exists s, g1 * p <= s /\ shades th (p * g) h p ph (Z.of_nat N + 1) s) ->
  (forall s, ground_in_shade th (p * g) h p ph s -> lit s = 0) -> (forall s, ~ ground_in_shade th (p * g) h p ph s -> lit s = 1) ->
  exists v, unshaded_ground_segment #th #ph #g #h #p N #mz #g0 #g1 = #v /\ 0 <= v <= 1 /\
            is_RInt lit (g0 * p) (g1 * p) ((g1 * p - g0 * p) * v).
Proof.
  intros Hc Hp Hg Hz (s0 & A0 & B0) (s1 & A1 & B1) L0 L1. eexists. split; [apply segment_fin; assumption|]. split.
  { set (q := rsum _ / _). unfold Rmax, Rmin; repeat destruct Rle_dec; lra. }
  assert (AB : g0 * p < g1 * p) by (apply Rmult_lt_compat_r; lra).
  apply shades_iff in B0. apply shades_iff in B1.
  pose proof (half_len_pos th ph (p * g)) as HL.
  set (lo := h * tanD ph - half_len th ph (p * g)). set (hi := h * tanD ph + half_len th ph (p * g)).
  assert (El : forall k, lo_of th ph (p * g) h p k = k * p + lo) by (intros; unfold lo_of, lo; ring).
  assert (Eh : forall k, hi_of th ph (p * g) h p k = k * p + hi) by (intros; unfold hi_of, hi; ring).
  pose proof (rows_lit lo hi p Hp ltac:(unfold lo, hi; lra) (g0 * p) (g1 * p) N lit AB) as RL. cbv zeta in RL.
  rewrite (rsum_ext _ (fun j => overlap (IZR j * p + lo) (IZR j * p + hi) (g0 * p) (g1 * p))) by (intros; rewrite El, Eh; reflexivity).
  apply RL.
  - rewrite El in B0. lra.
  - rewrite Eh in B1. lra.
  - intros s _ (k & Hk). apply L0. exists k. apply shades_iff. rewrite El, Eh. exact Hk.
  - intros s _ NK. apply L1. intros (k & Hk). apply NK. exists k. apply shades_iff in Hk. rewrite El, Eh in Hk. exact Hk.
Qed.
Lemma default_fraction th ph g h p (N : nat) mz : 0 < g -> cosD ph <> 0 -> Rabs ph <= mz ->
  Rabs (tanD ph) + Rabs (cosD th + sinD th * tanD ph) / 2 <= INR (N + 1) / g ->
  unshaded_ground_fraction #th #ph #g h p N #mz #0 #1 = Ok #(1 - Rmin 1 (g * Rabs (cosD th + sinD th * tanD ph))).
Proof.
  intros Hg Hc Hz HN. unfold unshaded_ground_fraction. rewrite !feqb_fin, !Reqb_t by reflexivity. cbn [andb]. rewrite fdiv_fin by lra.
  pose proof (gcr_inv g Hg) as Ha. rewrite segment_fin by (assumption || lra). do 2 f_equal.
  assert (W : 1 / g * g = 1) by (field; lra). rewrite W.
  set (T := tanD ph) in *. set (L := Rabs (cosD th + sinD th * T)) in *.
  assert (HL : half_len th ph 1 = L / 2) by (unfold half_len, L, T; rewrite !Rmult_1_l; reflexivity).
  rewrite (rsum_ext _ (fun j => overlap (IZR j * (1 / g) + (T - L / 2)) (IZR j * (1 / g) + (T + L / 2)) 0 (1 / g))).
  2:{ intros k _. unfold lo_of, hi_of. rewrite HL. fold T. rewrite Rmult_0_l, !Rmult_1_l. f_equal; lra. }
  pose proof (Rabs_pos (cosD th + sinD th * T)) as LP. fold L in LP. rewrite (cells_sum (T - L / 2) (T + L / 2) (1 / g)) by lra.
  replace (- Z.of_nat N + Z.of_nat (2 * N + 2) - 1)%Z with (Z.of_nat N + 1)%Z by lia.
  assert (E : IZR (Z.of_nat N + 1) = INR (N + 1)) by (rewrite INR_IZR_INZ; f_equal; lia). rewrite E, opp_IZR.
  replace (- - IZR (Z.of_nat N) * (1 / g) + 1 / g) with (INR (N + 1) / g) by (rewrite <- E, plus_IZR; field; lra).
  replace (- INR (N + 1) * (1 / g)) with (- (INR (N + 1) / g)) by (field; lra).
  assert (TB : - Rabs T <= T <= Rabs T) by (split; [pose proof (Rle_abs (- T)); rewrite Rabs_Ropp in *; lra|apply Rle_abs]).
  assert (OV : overlap (T - L / 2) (T + L / 2) (- (INR (N + 1) / g)) (INR (N + 1) / g) = L)
    by (unfold overlap; rewrite Rmin_left by lra; rewrite (Rmax_left (T - L / 2)) by lra; rewrite Rmax_right by lra; lra).
  rewrite OV. replace (L / (1 * (1 / g) - 0 * (1 / g))) with (g * L) by (field; lra).
  rewrite Rmax_left by (apply Rmult_le_pos; lra). rewrite Rmin_comm. reflexivity.
Qed.
