(** The crossed-string view factor from the ground to the sky is the mean of the pointwise one. *)
From Coquelicot Require Import Coquelicot.
From Verif Require Import Base.Fl Base.FlFacts Base.Py Base.Trig Model.Bifacial Spec.BifacialSpec Proofs.PvsystemP Proofs.Invert Proofs.BifRow Proofs.BifShade Proofs.BifGround Proofs.BifSky Proofs.BifStrings.
From Coq Require Import Psatz ZArith Classical.
Open Scope R_scope.

(** the rotation leans the row: [s] is its sign *)
Definition leaning (th s : R) : Prop := (0 < th < 180 /\ s = 1) \/ (-180 < th < 0 /\ s = -1).
Lemma leaning_sign th s : leaning th s -> fsign #th = #s.
Proof. unfold fsign, Rpos, Rneg. intros [[H ->]|[H ->]]; [rewrite Rltb_t by lra; reflexivity|rewrite Rltb_f, Rltb_t by lra; reflexivity]. Qed.
Lemma sinD_opp t : sinD (- t) = - sinD t. Proof. unfold sinD. rewrite Rrad_opp. apply sin_neg. Qed.
Lemma sinD_gt t : 0 < t < 180 -> 0 < sinD t.
Proof. intros H. unfold sinD, Rrad. pose proof PI_RGT_0. apply sin_gt_0; [apply Rdiv_lt_0_compat; [apply Rmult_lt_0_compat; lra|lra]|]. apply Rmult_lt_reg_r with 180; [lra|]. unfold Rdiv. rewrite Rmult_assoc, Rinv_l by lra. nra. Qed.
Lemma leaning_up th s : leaning th s -> 0 < s * sinD th /\ Rabs (sinD th) = s * sinD th /\ s * s = 1.
Proof.
  intros [[H ->]|[H ->]].
  - pose proof (sinD_gt th H). rewrite Rabs_right by lra. lra.
  - pose proof (sinD_gt (- th) ltac:(lra)) as S. rewrite sinD_opp in S. rewrite Rabs_left by lra. lra.
Qed.

Lemma if_fpt (b : bool) x y : (if b then fpt x else fpt y) = fpt (if b then x else y). Proof. destruct b; reflexivity. Qed.

Section Mean.
  Context (th sg g h p : R) (Hth : leaning th sg) (Hp : 0 < p) (Hg : 0 < g) (Hh : g * p / 2 * Rabs (sinD th) < h).
  Let tx := sg * (p * g) / 2 * cosD th.
  Let ty := sg * (p * g) / 2 * sinD th.
  Lemma ty_pos : 0 < ty.
  Proof. destruct (leaning_up th sg Hth) as (U & _). unfold ty. replace (sg * (p * g) / 2 * sinD th) with (p * g * (sg * sinD th) / 2) by field. assert (0 < p * g) by (apply Rmult_lt_0_compat; lra). assert (0 < p * g * (sg * sinD th)) by (apply Rmult_lt_0_compat; lra). lra. Qed.
  Lemma ty_h : ty < h.
  Proof. destruct (leaning_up th sg Hth) as (_ & A & _). rewrite A in Hh. unfold ty. lra. Qed.
  (** the top and the bottom edge of row k *)
  Let top (k : Z) : R * R := (IZR k * p + tx, h + ty).
  Let bot (k : Z) : R * R := (IZR k * p - tx, h - ty).
  Lemma ends k : (sg = 1 /\ (IZR k * p - 0.5 * (p * g * cosD th), h - 0.5 * (p * g * sinD th)) = bot k /\ (IZR k * p + 0.5 * (p * g * cosD th), h + 0.5 * (p * g * sinD th)) = top k) \/
                 (sg = -1 /\ (IZR k * p - 0.5 * (p * g * cosD th), h - 0.5 * (p * g * sinD th)) = top k /\ (IZR k * p + 0.5 * (p * g * cosD th), h + 0.5 * (p * g * sinD th)) = bot k).
  Proof.
    unfold top, bot, tx, ty. destruct Hth as [[H ->]|[H ->]]; [left|right]; (split; [reflexivity|]); split; f_equal; lra.
  Qed.
  Definition unclouded (N : nat) (s : R) : Prop :=
    forall k, (- Z.of_nat N <= k <= Z.of_nat N)%Z -> clear h p tx ty (IZR k * p) s.
  Lemma slat_fin g0 g1 k : g0 < g1 -> clear h p tx ty (IZR k * p) (g0 * p) -> clear h p tx ty (IZR k * p) (g1 * p) ->
    ground_sky_slat #th #g #h #p #g0 #g1 #(IZR k) = #(/ 2 * / ((g1 - g0) * p) * (strings h p tx ty (IZR k * p) (g0 * p) - strings h p tx ty (IZR k * p) (g1 * p))).
  Proof.
    intros Hg01 Ca Cb. pose proof ty_pos as TY. pose proof ty_h as TH. set (a := g0 * p) in *. set (b := g1 * p) in *. assert (Hab : a < b) by (apply Rmult_lt_compat_r; lra).
    unfold ground_sky_slat. rewrite (leaning_sign th sg Hth). rewrite cosd_fin, sind_fin. repeat rewrite ?fmul_fin, ?fsub_fin, ?fadd_fin. fold a b.
    cbn [fst snd]. repeat rewrite ?fmul_fin, ?fsub_fin, ?fadd_fin.
    set (m := IZR k * p).
    set (C := (m + p + tx, h + ty)). set (D := (m + tx, h + ty)). set (BK := (m - tx, h - ty)). set (BK1 := (m + p - tx, h - ty)).
    assert (EC : (#((IZR k + 1) * p + sg * 0.5 * (p * g * cosD th)), #(h + sg * 0.5 * (p * g * sinD th))) = fpt C) by (unfold fpt, C, m, tx, ty; cbn [fst snd]; f_equal; f_equal; lra).
    assert (ED : (#((IZR k + 1) * p + sg * 0.5 * (p * g * cosD th) - p), #(h + sg * 0.5 * (p * g * sinD th))) = fpt D) by (unfold fpt, D, m, tx, ty; cbn [fst snd]; f_equal; f_equal; lra).
    rewrite EC, ED.
    set (LF := (m - 0.5 * (p * g * cosD th), h - 0.5 * (p * g * sinD th))). set (RT := (m + 0.5 * (p * g * cosD th), h + 0.5 * (p * g * sinD th))).
    set (LF1 := (m - 0.5 * (p * g * cosD th) + p, h - 0.5 * (p * g * sinD th))). set (RT1 := (m + 0.5 * (p * g * cosD th) + p, h + 0.5 * (p * g * sinD th))).
    change (#(m - 0.5 * (p * g * cosD th)), #(h - 0.5 * (p * g * sinD th))) with (fpt LF). change (#(m + 0.5 * (p * g * cosD th)), #(h + 0.5 * (p * g * sinD th))) with (fpt RT).
    change (#(m - 0.5 * (p * g * cosD th) + p), #(h - 0.5 * (p * g * sinD th))) with (fpt LF1). change (#(m + 0.5 * (p * g * cosD th) + p), #(h + 0.5 * (p * g * sinD th))) with (fpt RT1).
    change (#a, #0) with (fpt (a, 0)). change (#b, #0) with (fpt (b, 0)). rewrite !angle_fin, !fgtb_fin.
    assert (Dk : D = top k) by reflexivity. assert (Bk : BK = bot k) by reflexivity.
    assert (W : (LF = BK /\ RT = D /\ LF1 = BK1 /\ RT1 = C) \/ (LF = D /\ RT = BK /\ LF1 = C /\ RT1 = BK1)).
    { unfold LF, RT, LF1, RT1, BK, BK1, C, D, tx, ty. destruct Hth as [[H E]|[H E]]; rewrite E; [left|right]; repeat split; f_equal; lra. }
    set (OL := if Rltb (rang (a, 0) RT) (rang (a, 0) LF) then RT else LF). set (OR := if Rltb (rang (b, 0) RT1) (rang (b, 0) LF1) then LF1 else RT1).
    rewrite !if_fpt. fold OL OR.
    assert (IL : is_left h tx ty m a OL).
    { pose proof (d_le_bk h tx ty m TY TH a) as T1. pose proof (bk_le_d h tx ty m TY TH a) as T2. unfold ang in T1, T2. fold D BK in T1, T2. unfold is_left, OL. fold D BK.
      destruct W as [(E1 & E2 & _)|(E1 & E2 & _)]; rewrite E1, E2.
      - destruct (Rltb_spec (rang (a, 0) D) (rang (a, 0) BK)); [left|right]; (split; [reflexivity|]); [apply T1|apply T2]; lra.
      - destruct (Rltb_spec (rang (a, 0) BK) (rang (a, 0) D)); [right|left]; (split; [reflexivity|]); [apply T2|apply T1]; lra. }
    assert (IR : is_right h p tx ty m b OR).
    { pose proof (c_le_bk1 h p tx ty m TY TH b) as T1. pose proof (bk1_le_c h p tx ty m TY TH b) as T2. unfold ang in T1, T2. fold C BK1 in T1, T2. unfold is_right, OR. fold C BK1.
      destruct W as [(_ & _ & E1 & E2)|(_ & _ & E1 & E2)]; rewrite E1, E2.
      - destruct (Rltb_spec (rang (b, 0) C) (rang (b, 0) BK1)); [right|left]; (split; [reflexivity|]); [apply T1|apply T2]; lra.
      - destruct (Rltb_spec (rang (b, 0) BK1) (rang (b, 0) C)); [left|right]; (split; [reflexivity|]); [apply T2|apply T1]; lra. }
    unfold obstructed_string_lengths. rewrite !string_fin. 
    pose proof (strings_code h p tx ty m Hp TY TH a b a OL OR ltac:(lra) ltac:(left; reflexivity) IL IR Ca) as SA.
    pose proof (strings_code h p tx ty m Hp TY TH a b b OL OR ltac:(lra) ltac:(right; reflexivity) IL IR Cb) as SB.
    fold C D in SA, SB. rewrite <- SA, <- SB. assert ((g1 - g0) * p <> 0) by (apply Rgt_not_eq, Rmult_lt_0_compat; lra).
    rewrite fdiv_fin by assumption. repeat rewrite ?fmul_fin, ?fsub_fin, ?fadd_fin. f_equal. replace 0.5 with (/ 2) by lra. field. split; lra.
  Qed.

  (** the pointwise view factor as a sum over the openings *)
  Lemma gaps_map n k : sky_gaps (map (fun j => (#(lo_dir th (g * p) h p 0 (IZR j)), #(hi_dir th (g * p) h p 0 (IZR j)))) (zrange k (S n))) = [] -> n = O.
  Proof. destruct n; [reflexivity|]. rewrite !zrange_cons. discriminate. Qed.
  Lemma gaps_sum (lo hi : Z -> R) n : forall k, fsum (sky_gaps (map (fun j => (#(lo j), #(hi j))) (zrange k (S n)))) =
    #(rsum (map (fun j => Rmax (cos (hi (j + 1)%Z) - cos (lo j)) 0) (zrange k n))).
  Proof.
    induction n as [|n IH]; intros k; [reflexivity|]. rewrite zrange_cons, zrange_cons. cbn [map]. rewrite sky_gaps_cons, Invert.fsum_cons. cbn [fst snd]. rewrite !fcos_fin, fsub_fin, fmax_fin.
    specialize (IH (k + 1)%Z). rewrite zrange_cons in IH. cbn [map] in IH. rewrite IH, fadd_fin. rewrite zrange_cons. reflexivity.
  Qed.
  Lemma seen_dirs s k : Rmax (cos (hi_dir th (g * p) h p s (IZR (k + 1))) - cos (lo_dir th (g * p) h p s (IZR k))) 0 = seen h p tx ty (IZR k * p) s.
  Proof.
    unfold seen, hi_dir, lo_dir, ang, rang. cbn [fst snd]. rewrite plus_IZR, !Rminus_0_r. unfold tx, ty. destruct Hth as [[H E]|[H E]]; rewrite E.
    - apply (f_equal (fun z => Rmax z 0)). apply f_equal2; apply f_equal, f_equal2; apply f_equal2; lra.
    - rewrite (Rmax_comm (Ratan2 (h + _) _)), (Rmin_comm (Ratan2 (h + _) _)). apply (f_equal (fun z => Rmax z 0)). apply f_equal2; apply f_equal, f_equal2; apply f_equal2; lra.
  Qed.
  Lemma point_fin N x : vf_ground_sky_2d #th #g #x #p #h N = #(/ 2 * rsum (map (fun k => seen h p tx ty (IZR k * p) (x * p)) (zrange (- Z.of_nat N) (2 * N + 1)))).
  Proof.
    unfold vf_ground_sky_2d. rewrite arange_z. rewrite (map_ext _ (fun j => (#(lo_dir th (g * p) h p (x * p) (IZR j)), #(hi_dir th (g * p) h p (x * p) (IZR j))))) by (intros; apply row_angles_fin).
    replace (2 * N + 2)%nat with (S (2 * N + 1)) by lia. rewrite (gaps_sum (fun j => lo_dir th (g * p) h p (x * p) (IZR j)) (fun j => hi_dir th (g * p) h p (x * p) (IZR j))).
    rewrite fdiv_fin by lra. f_equal. rewrite (rsum_ext _ (fun k => seen h p tx ty (IZR k * p) (x * p))); [lra|]. intros k _. apply seen_dirs.
  Qed.
  Lemma mean_fin N g0 g1 : g0 < g1 -> unclouded N (g0 * p) -> unclouded N (g1 * p) ->
    exists v, vf_ground_sky_2d_integ #th #g #h #p N #g0 #g1 = #v /\
      forall f, (forall x, vf_ground_sky_2d #th #g #x #p #h N = #(f x)) -> is_RInt f g0 g1 ((g1 - g0) * v).
  Proof.
    intros H U0 U1. pose proof ty_pos as TY. pose proof ty_h as TH. unfold vf_ground_sky_2d_integ. rewrite arange_z.
    set (zs := zrange (- Z.of_nat N) (2 * N + 1)).
    assert (In_zs : forall k, In k zs -> (- Z.of_nat N <= k <= Z.of_nat N)%Z) by (intros k Hk; apply zrange_in in Hk; lia).
    assert (GP : 0 < (g1 - g0) * p) by (apply Rmult_lt_0_compat; lra). assert (AB : g0 * p <= g1 * p) by lra.
    rewrite (fsum_fin _ (fun k => (strings h p tx ty (IZR k * p) (g0 * p) - strings h p tx ty (IZR k * p) (g1 * p)) / (2 * ((g1 - g0) * p)))).
    2:{ intros k Hk. rewrite slat_fin by first [assumption | apply U0, In_zs, Hk | apply U1, In_zs, Hk]. rewrite fmax_fin. f_equal. rewrite Rmax_left; [field; split; lra|].
        apply Rmult_le_pos; [apply Rmult_le_pos; [lra|left; apply Rinv_0_lt_compat; exact GP]|]. apply strings_mono; assumption. }
    eexists. split; [reflexivity|]. intros f Hf.
    pose proof (sum_int (fun k => seen h p tx ty (IZR k * p)) (fun k => strings h p tx ty (IZR k * p) (g0 * p) - strings h p tx ty (IZR k * p) (g1 * p)) zs (g0 * p) (g1 * p)) as I.
    specialize (I ltac:(intros k _; apply strings_int; assumption)).
    rewrite rsum_div. set (S := rsum (map _ zs)) in *.
    pose proof (is_RInt_comp_lin (V := R_NormedModule) (fun s => rsum (map (fun k => seen h p tx ty (IZR k * p) s) zs)) p 0 g0 g1 S) as C.
    replace (p * g0 + 0) with (g0 * p) in C by ring. replace (p * g1 + 0) with (g1 * p) in C by ring. specialize (C I).
    apply (is_RInt_scal (V := R_NormedModule) _ g0 g1 (/ (2 * p))) in C.
    replace ((g1 - g0) * (S / (2 * ((g1 - g0) * p)))) with (scal (/ (2 * p)) S : R) by (unfold scal; cbn; unfold mult; cbn; field; split; lra).
    apply (is_RInt_ext _ f _ _ _) in C; [exact C|]. intros x _. specialize (Hf x). rewrite point_fin in Hf. apply Fin_inj in Hf. rewrite <- Hf. fold zs.
    unfold scal; cbn; unfold mult; cbn. rewrite (rsum_ext (fun k => seen h p tx ty (IZR k * p) (p * x + 0)) (fun k => seen h p tx ty (IZR k * p) (x * p))); [|intros k _; f_equal; ring].
    set (q := rsum _). change (/ (2 * p) * (p * q) = / 2 * q). field. lra.
  Qed.
End Mean.

(** ** Horizontal rows: the strings run to the middle of the row *)
Section Flat.
  Context (g h p : R) (Hp : 0 < p) (Hg : 0 < g <= 1) (Hh : 0 < h).
  Let w := g * p.
  Let rt (k : R) : R * R := (k * p + w / 2, h).
  Let lf (k : R) : R * R := (k * p - w / 2, h).
  Let mid (k : R) : R * R := (k * p, h).
  Definition flat_clear (N : nat) (s : R) : Prop :=
    forall k, (- Z.of_nat N <= k <= Z.of_nat N)%Z -> 1e-8 < ang s (lf (IZR k + 1)) - ang s (mid (IZR k + 1)) /\ 1e-8 < ang s (mid (IZR k)) - ang s (rt (IZR k)).
  Lemma w_pos : 0 < w <= p. Proof. unfold w. split; [apply Rmult_lt_0_compat; lra|]. assert (0 <= (1 - g) * p) by (apply Rmult_le_pos; lra). lra. Qed.
  Lemma flat_le s x y : x <= y -> ang s (y, h) <= ang s (x, h).
  Proof. intros H. apply ang_le; [exact Hh|exact Hh|]. unfold cross. cbn [fst snd]. assert (0 <= (y - x) * h) by (apply Rmult_le_pos; lra). lra. Qed.
  Lemma flat_lt s x y : x < y -> ang s (y, h) < ang s (x, h).
  Proof. intros H. apply ang_lt; [exact Hh|exact Hh|]. unfold cross. cbn [fst snd]. assert (0 < (y - x) * h) by (apply Rmult_lt_0_compat; lra). lra. Qed.
  Lemma flat_slat g0 g1 k : g0 < g1 ->
    (forall s, s = g0 * p \/ s = g1 * p -> 1e-8 < ang s (lf (k + 1)) - ang s (mid (k + 1)) /\ 1e-8 < ang s (mid k) - ang s (rt k)) ->
    ground_sky_slat #0 #g #h #p #g0 #g1 #k =
    #(/ 2 * / ((g1 - g0) * p) * ((len (g0 * p) (lf (k + 1)) - len (g0 * p) (rt k)) - (len (g1 * p) (lf (k + 1)) - len (g1 * p) (rt k)))).
  Proof.
    intros H Cl. pose proof w_pos as W. set (a := g0 * p) in *. set (b := g1 * p) in *. assert (Hab : a < b) by (apply Rmult_lt_compat_r; lra).
    unfold ground_sky_slat. assert (E0 : fsign #0 = #0) by (unfold fsign, Rpos, Rneg; rewrite !Rltb_f by lra; reflexivity). rewrite E0.
    assert (C1 : cosD 0 = 1) by (unfold cosD; rewrite Rrad_0, cos_0; reflexivity). assert (S1 : sinD 0 = 0) by (unfold sinD; rewrite Rrad_0, sin_0; reflexivity).
    rewrite cosd_fin, sind_fin, C1, S1. repeat rewrite ?fmul_fin, ?fsub_fin, ?fadd_fin. fold a b. cbn [fst snd]. repeat rewrite ?fmul_fin, ?fsub_fin, ?fadd_fin.
    assert (E1 : (#((k + 1) * p + 0 * 0.5 * (p * g * 1)), #(h + 0 * 0.5 * (p * g * 0))) = fpt (mid (k + 1))) by (unfold fpt, mid; cbn [fst snd]; apply f_equal2; apply f_equal; lra).
    assert (E2 : (#((k + 1) * p + 0 * 0.5 * (p * g * 1) - p), #(h + 0 * 0.5 * (p * g * 0))) = fpt (mid k)) by (unfold fpt, mid; cbn [fst snd]; apply f_equal2; apply f_equal; lra).
    assert (E3 : (#(k * p - 0.5 * (p * g * 1)), #(h - 0.5 * (p * g * 0))) = fpt (lf k)) by (unfold fpt, lf, w; cbn [fst snd]; apply f_equal2; apply f_equal; lra).
    assert (E4 : (#(k * p + 0.5 * (p * g * 1)), #(h + 0.5 * (p * g * 0))) = fpt (rt k)) by (unfold fpt, rt, w; cbn [fst snd]; apply f_equal2; apply f_equal; lra).
    assert (E5 : (#(k * p - 0.5 * (p * g * 1) + p), #(h - 0.5 * (p * g * 0))) = fpt (lf (k + 1))) by (unfold fpt, lf, w; cbn [fst snd]; apply f_equal2; apply f_equal; lra).
    assert (E6 : (#(k * p + 0.5 * (p * g * 1) + p), #(h + 0.5 * (p * g * 0))) = fpt (rt (k + 1))) by (unfold fpt, rt, w; cbn [fst snd]; apply f_equal2; apply f_equal; lra).
    rewrite E1, E2, E3, E4, E5, E6. change (#a, #0) with (fpt (a, 0)). change (#b, #0) with (fpt (b, 0)). rewrite !angle_fin, !fgtb_fin.
    assert (L1 : rang (a, 0) (rt k) < rang (a, 0) (lf k)) by (apply (flat_lt a); lra). assert (L2 : rang (b, 0) (rt (k + 1)) < rang (b, 0) (lf (k + 1))) by (apply (flat_lt b); lra).
    rewrite (Rltb_t _ _ L1), (Rltb_t _ _ L2). unfold obstructed_string_lengths. rewrite !string_fin.
    assert (S : forall s, s = a \/ s = b -> rstring (s, 0) (mid (k + 1)) (rt k) (lf (k + 1)) = len s (lf (k + 1)) + rdist (lf (k + 1)) (mid (k + 1)) /\
                                          rstring (s, 0) (mid k) (rt k) (lf (k + 1)) = len s (rt k) + rdist (rt k) (mid k)).
    { intros s Hs. destruct (Cl s Hs) as [K1 K2]. unfold ang in K1, K2. unfold rstring, len. split.
      - destruct (Rlt_dec 1e-8 (rang (s, 0) (lf (k + 1)) - rang (s, 0) (mid (k + 1)))); [reflexivity|lra].
      - assert (rang (s, 0) (lf (k + 1)) <= rang (s, 0) (mid k)) by (apply (flat_le s); lra).
        destruct (Rlt_dec 1e-8 (rang (s, 0) (lf (k + 1)) - rang (s, 0) (mid k))); [lra|]. destruct (Rlt_dec 1e-8 (rang (s, 0) (mid k) - rang (s, 0) (rt k))); [reflexivity|lra]. }
    destruct (S a (or_introl eq_refl)) as [A1 A2]. destruct (S b (or_intror eq_refl)) as [B1 B2]. rewrite A1, A2, B1, B2.
    assert ((g1 - g0) * p <> 0) by (apply Rgt_not_eq, Rmult_lt_0_compat; lra).
    rewrite fdiv_fin by assumption. repeat rewrite ?fmul_fin, ?fsub_fin, ?fadd_fin. f_equal. replace 0.5 with (/ 2) by lra. field. split; lra.
  Qed.
  Lemma flat_seen s k : Rmax (cos (hi_dir 0 (g * p) h p s (k + 1)) - cos (lo_dir 0 (g * p) h p s k)) 0 = cos (ang s (lf (k + 1))) - cos (ang s (rt k)).
  Proof.
    pose proof w_pos as W. unfold hi_dir, lo_dir. assert (C1 : cosD 0 = 1) by (unfold cosD; rewrite Rrad_0, cos_0; reflexivity). assert (S1 : sinD 0 = 0) by (unfold sinD; rewrite Rrad_0, sin_0; reflexivity).
    rewrite C1, S1. fold w. 
    assert (E1 : forall q, Ratan2 (h + w / 2 * 0) (q * p - s + w / 2 * 1) = ang s (rt q)) by (intros; unfold ang, rang, rt; cbn [fst snd]; apply f_equal2; lra).
    assert (E2 : forall q, Ratan2 (h - w / 2 * 0) (q * p - s - w / 2 * 1) = ang s (lf q)) by (intros; unfold ang, rang, lf; cbn [fst snd]; apply f_equal2; lra).
    rewrite !E1, !E2. rewrite (Rmax_right (ang s (rt (k + 1)))) by (apply flat_le; lra). rewrite (Rmin_left (ang s (rt k))) by (apply flat_le; lra).
    apply Rmax_left. assert (A : ang s (lf (k + 1)) <= ang s (rt k)) by (apply flat_le; lra).
    pose proof (ang_range s (lf (k + 1)) Hh). pose proof (ang_range s (rt k) Hh).
    destruct (Req_dec (ang s (lf (k + 1))) (ang s (rt k))) as [->|N]; [lra|]. pose proof (cos_decreasing_1 (ang s (lf (k + 1))) (ang s (rt k))). lra.
  Qed.
  Lemma flat_mean N g0 g1 : g0 < g1 -> flat_clear N (g0 * p) -> flat_clear N (g1 * p) ->
    exists v, vf_ground_sky_2d_integ #0 #g #h #p N #g0 #g1 = #v /\
      forall f, (forall x, vf_ground_sky_2d #0 #g #x #p #h N = #(f x)) -> is_RInt f g0 g1 ((g1 - g0) * v).
  Proof.
    intros H U0 U1. unfold vf_ground_sky_2d_integ. rewrite arange_z. set (zs := zrange (- Z.of_nat N) (2 * N + 1)).
    assert (In_zs : forall k, In k zs -> (- Z.of_nat N <= k <= Z.of_nat N)%Z) by (intros k Hk; apply zrange_in in Hk; lia).
    assert (GP : 0 < (g1 - g0) * p) by (apply Rmult_lt_0_compat; lra). assert (AB : g0 * p <= g1 * p) by lra.
    set (V := fun k => (len (g0 * p) (lf (IZR k + 1)) - len (g0 * p) (rt (IZR k))) - (len (g1 * p) (lf (IZR k + 1)) - len (g1 * p) (rt (IZR k)))).
    set (F := fun k s => cos (ang s (lf (IZR k + 1))) - cos (ang s (rt (IZR k)))).
    assert (FI : forall k, is_RInt (F k) (g0 * p) (g1 * p) (V k)) by (intros k; apply diff_int; [exact Hh|exact Hh|exact AB]).
    assert (FP : forall k s, 0 <= F k s) by (intros k s; unfold F; rewrite <- flat_seen; apply Rmax_r).
    assert (VP : forall k, 0 <= V k) by (intros k; apply (is_RInt_ge_0 (F k) (g0 * p) (g1 * p)); [exact AB|apply FI|intros; apply FP]).
    rewrite (fsum_fin _ (fun k => V k / (2 * ((g1 - g0) * p)))).
    2:{ intros k Hk. rewrite flat_slat; [|exact H|intros s [->| ->]; [apply U0, In_zs, Hk|apply U1, In_zs, Hk]]. rewrite fmax_fin. f_equal. fold (V k). rewrite Rmax_left; [field; split; lra|].
        apply Rmult_le_pos; [apply Rmult_le_pos; [lra|left; apply Rinv_0_lt_compat; exact GP]|apply VP]. }
    eexists. split; [reflexivity|]. intros f Hf.
    pose proof (sum_int F V zs (g0 * p) (g1 * p) ltac:(intros; apply FI)) as I.
    rewrite rsum_div. set (S := rsum (map V zs)) in *.
    pose proof (is_RInt_comp_lin (V := R_NormedModule) (fun s => rsum (map (fun k => F k s) zs)) p 0 g0 g1 S) as C.
    replace (p * g0 + 0) with (g0 * p) in C by ring. replace (p * g1 + 0) with (g1 * p) in C by ring. specialize (C I).
    apply (is_RInt_scal (V := R_NormedModule) _ g0 g1 (/ (2 * p))) in C.
    replace ((g1 - g0) * (S / (2 * ((g1 - g0) * p)))) with (scal (/ (2 * p)) S : R) by (unfold scal; cbn; unfold mult; cbn; field; split; lra).
    apply (is_RInt_ext _ f _ _ _) in C; [exact C|]. intros x _. specialize (Hf x).
    unfold vf_ground_sky_2d in Hf. rewrite arange_z in Hf. rewrite (map_ext _ (fun j => (#(lo_dir 0 (g * p) h p (x * p) (IZR j)), #(hi_dir 0 (g * p) h p (x * p) (IZR j))))) in Hf by (intros; apply row_angles_fin).
    replace (2 * N + 2)%nat with (Datatypes.S (2 * N + 1)) in Hf by lia. rewrite (gaps_sum (fun j => lo_dir 0 (g * p) h p (x * p) (IZR j)) (fun j => hi_dir 0 (g * p) h p (x * p) (IZR j))) in Hf.
    rewrite fdiv_fin in Hf by lra. apply Fin_inj in Hf. fold zs in Hf.
    rewrite (rsum_ext _ (fun k => F k (x * p))) in Hf by (intros k _; unfold F; rewrite plus_IZR; apply flat_seen). rewrite <- Hf.
    unfold scal; cbn; unfold mult; cbn. rewrite (rsum_ext (fun k => F k (p * x + 0)) (fun k => F k (x * p))); [|intros k _; f_equal; ring].
    set (q := rsum _). change (/ (2 * p) * (p * q) = q / 2). field. lra.
  Qed.
End Flat.
