(** Lemmas: the GTI-DIRINT loop keeps the best iterate. *)
From Verif Require Import Base.Fl Base.FlFacts Base.Py Spec.BestIterate Model.IrradDecomp.
From Coq Require Import Arith Lia.
Open Scope R_scope.

Lemma fltb_le_trans x y z : fltb x y = true -> fltb z y = false -> isnan z = false -> fltb x z = true.
Proof.
  destruct x, y, z; simpl; try discriminate; auto.
  rewrite !Rltb_true, Rltb_false. lra.
Qed.
Lemma fltb_trans x y z : fltb x y = true -> fltb y z = true -> fltb x z = true.
Proof.
  destruct x, y, z; simpl; try discriminate; auto. rewrite !Rltb_true. lra.
Qed.
Lemma fltb_asym x y : fltb x y = true -> fltb y x = false.
Proof. destruct x, y; simpl; try discriminate; auto. rewrite Rltb_true, Rltb_false. lra. Qed.
Lemma fltb_irrefl x : fltb x x = false.
Proof. destruct x; simpl; auto. apply Rltb_false. lra. Qed.
Lemma fltb_fleb x y : fltb x y = true -> fleb y x = false.
Proof. destruct x, y; simpl; try discriminate; auto. rewrite Rltb_true, Rleb_false. lra. Qed.

Lemma smap2_length {A B C} (f : A -> B -> C) x y n :
  length x = n -> length y = n -> length (smap2 f x y) = n.
Proof. intros H1 H2. unfold smap2. rewrite map_length, combine_length, H1, H2. apply Nat.min_id. Qed.
Lemma smap2_nth {A B C} (f : A -> B -> C) x y i a b c :
  (i < length x)%nat -> length x = length y ->
  nth i (smap2 f x y) c = f (nth i x a) (nth i y b).
Proof.
  intros Hi Hl. unfold smap2.
  rewrite (nth_indep _ c (f (fst (a, b)) (snd (a, b)))) by (rewrite map_length, combine_length; lia).
  rewrite (map_nth (fun p => f (fst p) (snd p))), combine_nth by exact Hl. reflexivity.
Qed.
Lemma swhere_length {A} c (x y : list A) n :
  length c = n -> length x = n -> length y = n -> length (swhere c x y) = n.
Proof. intros H1 H2 H3. unfold swhere. rewrite map_length, !combine_length, H1, H2, H3. lia. Qed.
Lemma swhere_nth {A} c (x y : list A) i (d : A) :
  (i < length x)%nat -> length c = length x -> length y = length x ->
  nth i (swhere c x y) d = if nth i c false then nth i x d else nth i y d.
Proof.
  intros Hi H1 H2. unfold swhere.
  set (g := fun p : bool * (A * A) => _).
  rewrite (nth_indep _ d (g (false, (d, d)))) by (rewrite map_length, !combine_length; lia).
  rewrite (map_nth g). rewrite combine_nth by (rewrite combine_length; lia).
  rewrite combine_nth by lia. unfold g. reflexivity.
Qed.

Section Gti.
  Context {V : Type}.
  Variable eval : list fl -> list V * list fl.
  Variable poa : list fl.
  Variable aoi90 : list bool.
  Let n := length poa.
  Hypothesis eval_len : forall p, length p = n -> length (fst (eval p)) = n /\ length (snd (eval p)) = n.
  Hypothesis aoi_len : length aoi90 = n.

  (** the inputs of the successive evaluations, as if the loop never stopped *)
  Fixpoint gti_inputs (k : nat) : list fl :=
    match k with
    | O => poa
    | S k' => let p := gti_inputs k' in
              smap2 (fun p d => fmax #1 (fsub p (fmul #(gti_coeff k') d))) p
                    (smap2 fsub (snd (eval p)) poa)
    end.
  Definition gti_value (k i : nat) (d : V) : V := nth i (fst (eval (gti_inputs k))) d.
  (** mismatch of evaluation k at point i *)
  Definition gti_mismatch (i k : nat) : fl :=
    fabs (fsub (nth i (snd (eval (gti_inputs k))) NaN) (nth i poa NaN)).

  Lemma gti_inputs_len k : length (gti_inputs k) = n.
  Proof.
    induction k as [|k IH]; [reflexivity|]. simpl. apply smap2_length; [exact IH|].
    apply smap2_length; [apply eval_len, IH|reflexivity].
  Qed.

  (** state of the loop after m >= 1 iterations *)
  Definition gti_inv (m : nat) (s : gti_state (V := V)) : Prop :=
    g_poa_i s = gti_inputs m /\ length (g_best_diff s) = n /\
    exists b, g_best s = Some b /\ length b = n /\
    forall i, (i < n)%nat -> exists k, best_iter (gti_mismatch i) m k /\
      (forall d, nth i b d = gti_value k i d) /\
      nth i (g_best_diff s) NaN =
        (if fltb (gti_mismatch i k) #9999 then gti_mismatch i k else #9999).

  Lemma gti_diff_nth p i : length p = n -> (i < n)%nat ->
    nth i (map fabs (smap2 fsub (snd (eval p)) poa)) NaN
    = fabs (fsub (nth i (snd (eval p)) NaN) (nth i poa NaN)).
  Proof.
    intros Hp Hi. change NaN with (fabs NaN) at 1. rewrite map_nth. f_equal.
    apply smap2_nth; destruct (eval_len p Hp) as [_ E]; rewrite E; auto.
  Qed.

  Lemma gti_inv_first :
    gti_inv 1 (gti_iter eval poa true (gti_coeff 0) (gti_init poa)).
  Proof.
    unfold gti_iter, gti_init; cbn [g_poa_i g_best_diff g_best].
    destruct (eval poa) as [vals model] eqn:E.
    destruct (eval_len poa eq_refl) as [L1 L2]. rewrite E in L1, L2. cbn [fst snd] in L1, L2.
    split; [|split]; cbn [g_poa_i g_best_diff g_best].
    - cbn [gti_inputs]. rewrite E. reflexivity.
    - apply swhere_length; rewrite ?map_length; auto.
      + apply smap2_length; rewrite ?map_length; auto. apply smap2_length; auto.
      + apply smap2_length; auto.
    - exists vals. split; [reflexivity|]. split; [exact L1|]. intros i Hi. exists 0%nat.
      assert (Hm : gti_mismatch i 0 = fabs (fsub (nth i model NaN) (nth i poa NaN))).
      { unfold gti_mismatch. cbn [gti_inputs]. rewrite E. reflexivity. }
      split; [|split].
      + split; [lia|]. destruct (fltb (gti_mismatch i 0) #9999) eqn:Hd.
        * left. split; [reflexivity|]. split; intros j Hj; [|lia].
          replace j with 0%nat by lia. apply fltb_irrefl.
        * right. split; [reflexivity|]. intros j Hj. replace j with 0%nat by lia. exact Hd.
      + intros d. unfold gti_value. cbn [gti_inputs]. rewrite E. reflexivity.
      + rewrite swhere_nth; rewrite ?map_length.
        2:{ rewrite (smap2_length _ _ _ n); auto. }
        2:{ rewrite !(smap2_length _ _ _ n); rewrite ?map_length; auto; apply smap2_length; auto. }
        2:{ rewrite (smap2_length _ _ _ n); auto. }
        assert (D : nth i (map fabs (smap2 fsub model poa)) NaN = gti_mismatch i 0).
        { rewrite Hm. pose proof (gti_diff_nth poa i eq_refl Hi) as D. rewrite E in D. exact D. }
        rewrite D.
        rewrite (smap2_nth _ _ _ i NaN NaN false).
        2:{ rewrite map_length, (smap2_length _ _ _ n); auto. }
        2:{ rewrite !map_length, (smap2_length _ _ _ n); auto. }
        rewrite D. rewrite (nth_indep _ NaN #9999) by (rewrite map_length; exact Hi).
        rewrite (map_nth (fun _ => #9999) poa NaN). reflexivity.
  Qed.

  Lemma gti_inv_step m s c : (1 <= m)%nat -> c = gti_coeff m ->
    gti_inv m s -> gti_inv (S m) (gti_iter eval poa false c s).
  Proof.
    intros Hm -> (Hp & Hl & b & Hb & Hbl & Hpt). unfold gti_iter. rewrite Hp.
    pose proof (gti_inputs_len m) as Lp. destruct (eval_len _ Lp) as [L1 L2].
    destruct (eval (gti_inputs m)) as [vals model] eqn:E. cbn [fst snd] in L1, L2.
    pose proof (smap2_length fsub model poa n L2 eq_refl) as Ld.
    assert (Lda : length (map fabs (smap2 fsub model poa)) = n) by (rewrite map_length; exact Ld).
    pose proof (smap2_length fltb _ _ n Lda Hl) as Ls.
    split; [|split]; cbn [g_poa_i g_best_diff g_best].
    - cbn [gti_inputs]. rewrite E. reflexivity.
    - apply swhere_length; auto.
    - rewrite Hb. exists (swhere (smap2 fltb (map fabs (smap2 fsub model poa)) (g_best_diff s)) vals b).
      split; [reflexivity|]. split; [apply swhere_length; auto|].
      intros i Hi. destruct (Hpt i Hi) as (k & Hk & Hval & Hbd).
      assert (Hd : nth i (map fabs (smap2 fsub model poa)) NaN = gti_mismatch i m).
      { unfold gti_mismatch. rewrite E. cbn [snd]. pose proof (gti_diff_nth _ i Lp Hi) as D.
        rewrite E in D. exact D. }
      set (sm := smap2 fltb (map fabs (smap2 fsub model poa)) (g_best_diff s)) in *.
      assert (Hsm : nth i sm false = fltb (gti_mismatch i m) (nth i (g_best_diff s) NaN)).
      { unfold sm. rewrite (smap2_nth _ _ _ i NaN NaN false); [rewrite Hd; reflexivity| |]; lia. }
      rewrite (swhere_nth sm _ (g_best_diff s)) by lia.
      rewrite Hsm, Hbd, Hd.
      destruct Hk as (HkK & Hk).
      destruct (fltb (gti_mismatch i m) (if fltb (gti_mismatch i k) #9999 then gti_mismatch i k else #9999)) eqn:Hlt.
      + (* improvement at iteration m *)
        exists m.
        assert (Hm9 : fltb (gti_mismatch i m) #9999 = true).
        { destruct (fltb (gti_mismatch i k) #9999) eqn:Hk9; [|exact Hlt]. eapply fltb_trans; eauto. }
        split; [|split].
        * split; [lia|]. left. split; [exact Hm9|].
          assert (Hall : forall j, (j < m)%nat -> isnan (gti_mismatch i j) = true \/
                    fltb (gti_mismatch i m) (gti_mismatch i j) = true).
          { intros j Hj. destruct (isnan (gti_mismatch i j)) eqn:Hn; [auto|]. right.
            destruct Hk as [(H1 & H2 & H3)|(-> & H2)].
            - rewrite H1 in Hlt. eapply fltb_le_trans; [exact Hlt|apply H2; lia|exact Hn].
            - assert (Hk9 : fltb (gti_mismatch i 0) #9999 = false) by (apply H2; lia).
              rewrite Hk9 in Hlt. eapply fltb_le_trans; [exact Hlt|apply H2; lia|exact Hn]. }
          split; intros j Hj.
          -- destruct (Nat.eq_dec j m) as [->|Hne]; [apply fltb_irrefl|].
             destruct (Hall j ltac:(lia)) as [Hn|Hn]; [|apply fltb_asym, Hn].
             destruct (gti_mismatch i j); try discriminate Hn. reflexivity.
          -- destruct (Hall j Hj) as [Hn|Hn]; [|apply fltb_fleb, Hn].
             destruct (gti_mismatch i j); try discriminate Hn. reflexivity.
        * intros d. rewrite swhere_nth by lia. rewrite Hsm.
          rewrite Hbd, Hlt. unfold gti_value. rewrite E. reflexivity.
        * rewrite Hm9. reflexivity.
      + (* iteration k stays the best *)
        exists k. split; [|split].
        * split; [lia|]. destruct Hk as [(H1 & H2 & H3)|(-> & H2)].
          -- left. split; [exact H1|]. split; [|exact H3]. intros j Hj.
             destruct (Nat.eq_dec j m) as [->|Hne]; [|apply H2; lia]. rewrite H1 in Hlt. exact Hlt.
          -- right. split; [reflexivity|]. intros j Hj.
             destruct (Nat.eq_dec j m) as [->|Hne]; [|apply H2; lia].
             rewrite (H2 0%nat) in Hlt by lia. exact Hlt.
        * intros d. rewrite swhere_nth by lia. rewrite Hsm.
          rewrite Hbd, Hlt. apply Hval.
        * reflexivity.
  Qed.

  (** all points with AOI < 90 have seen a mismatch of at most 1 within the first K evaluations *)
  Definition all_close (K : nat) : Prop :=
    forall i, (i < n)%nat -> nth i aoi90 false = true ->
      exists k, (k < K)%nat /\ fleb (gti_mismatch i k) #1 = true.

  Lemma gti_converged_iff m s : (1 <= m)%nat -> gti_inv m s ->
    gti_converged aoi90 s = true <-> all_close m.
  Proof.
    intros Hm (Hp & Hl & b & Hb & Hbl & Hpt). unfold gti_converged. rewrite forallb_forall. split.
    - intros H i Hi Ha. destruct (Hpt i Hi) as (k & (HkK & Hk) & _ & Hbd). exists k. split; [exact HkK|].
      specialize (H (nth i (g_best_diff s) NaN, nth i aoi90 false)). cbn [fst snd] in H.
      rewrite Ha, Hbd in H. simpl implb in H.
      assert (Hin : In ((if fltb (gti_mismatch i k) #9999 then gti_mismatch i k else #9999), true)
                      (combine (g_best_diff s) aoi90)).
      { rewrite <- Hbd, <- Ha. rewrite <- combine_nth by lia. apply nth_In. rewrite combine_length. lia. }
      specialize (H Hin). destruct (fltb (gti_mismatch i k) #9999); [exact H|].
      simpl in H. apply Rleb_true in H. lra.
    - intros H [d a] Hin. cbn [fst snd]. destruct a; [|reflexivity]. simpl implb.
      apply (In_nth _ _ (NaN, false)) in Hin. destruct Hin as (i & Hi & Hn).
      rewrite combine_length in Hi. rewrite combine_nth in Hn by lia. injection Hn as Hd Ha.
      destruct (H i ltac:(lia) Ha) as (j & Hj & Hle).
      destruct (Hpt i ltac:(lia)) as (k & (HkK & Hk) & _ & Hbd). rewrite <- Hd, Hbd.
      destruct Hk as [(H1 & H2 & H3)|(-> & H2)].
      + rewrite H1. specialize (H2 j Hj).
        destruct (gti_mismatch i j), (gti_mismatch i k); simpl in *; try discriminate; auto.
        apply Rleb_true. apply Rleb_true in Hle. apply Rltb_false in H2. lra.
      + specialize (H2 j Hj). destruct (gti_mismatch i j) eqn:E; simpl in *; try discriminate; auto.
        { apply Rleb_true in Hle. apply Rltb_false in H2. lra. }
        all: unfold gti_mismatch in E; destruct (fsub _ _); discriminate E.
  Qed.

  Lemma gti_loop_spec : forall rest m s, (1 <= m)%nat -> gti_inv m s ->
    exists K, (m <= K <= m + rest)%nat /\
      gti_inv K (gti_loop eval poa aoi90 false (map gti_coeff (seq m rest)) s) /\
      (forall j, (m <= j < K)%nat -> ~ all_close j) /\
      ((K < m + rest)%nat -> all_close K).
  Proof.
    induction rest as [|r IH]; intros m s Hm Hs.
    - exists m. simpl. split; [lia|]. split; [exact Hs|]. split; [lia|lia].
    - simpl seq. simpl map. cbn [gti_loop]. destruct (gti_converged aoi90 s) eqn:Hc.
      + exists m. split; [lia|]. split; [exact Hs|]. split; [intros; lia|]. intros _.
        apply (gti_converged_iff m s Hm Hs), Hc.
      + destruct (IH (S m) (gti_iter eval poa false (gti_coeff m) s)) as (K & HK & Hi & Hj & Hf).
        * lia.
        * apply gti_inv_step; auto.
        * exists K. split; [lia|]. split; [exact Hi|]. split.
          -- intros j Hj'. destruct (Nat.eq_dec j m) as [->|]; [|apply Hj; lia].
             rewrite <- (gti_converged_iff m s Hm Hs), Hc. discriminate.
          -- intros. apply Hf. lia.
  Qed.

  Lemma gti_init_not_converged : existsb (fun b => b) aoi90 = true ->
    gti_converged aoi90 (gti_init (V := V) poa) = false.
  Proof.
    intros H. apply existsb_exists in H. destruct H as (a & Hin & Ha). subst a.
    apply (In_nth _ _ false) in Hin. destruct Hin as (i & Hi & Hn).
    destruct (gti_converged aoi90 (gti_init poa)) eqn:E; [|reflexivity]. unfold gti_converged in E.
    rewrite forallb_forall in E. specialize (E (#9999, true)). cbn [fst snd implb] in E. exfalso.
    assert (X : fleb #9999 #1 = true).
    { apply E. cbn [gti_init g_best_diff].
      replace (#9999, true) with (nth i (combine (map (fun _ => #9999) poa) aoi90) (#9999, false)).
      - apply nth_In. rewrite combine_length, map_length. lia.
      - rewrite combine_nth by (rewrite map_length; lia). rewrite Hn. f_equal.
        apply (map_nth (fun _ : fl => #9999) poa NaN). }
    simpl in X. apply Rleb_true in X. lra.
  Qed.

  Lemma gti_dirint_spec max_it :
    (existsb (fun b => b) aoi90 = false -> gti_dirint eval poa aoi90 max_it = Err ValueError) /\
    (existsb (fun b => b) aoi90 = true -> max_it = 0%nat ->
       gti_dirint eval poa aoi90 max_it = Err UnboundLocalError) /\
    (existsb (fun b => b) aoi90 = true -> (1 <= max_it)%nat ->
       exists K best, gti_dirint eval poa aoi90 max_it = Ok best /\
         (1 <= K <= max_it)%nat /\
         (forall j, (1 <= j < K)%nat -> ~ all_close j) /\
         ((K < max_it)%nat -> all_close K) /\
         length best = n /\
         forall i, (i < n)%nat -> exists k, best_iter (gti_mismatch i) K k /\
           forall d, nth i best d = gti_value k i d).
  Proof.
    unfold gti_dirint. repeat split.
    - intros ->. reflexivity.
    - intros -> ->. reflexivity.
    - intros Ha Hm. rewrite Ha. destruct max_it as [|r]; [lia|].
      unfold gti_dirint_lt_90, gti_coeffs. simpl seq. simpl map. cbn [gti_loop].
      rewrite gti_init_not_converged by exact Ha.
      destruct (gti_loop_spec r 1 _ (le_n 1) gti_inv_first) as (K & HK & (Hp & Hl & b & Hb & Hbl & Hpt) & Hj & Hf).
      rewrite Hb. exists K, b. split; [reflexivity|]. split; [lia|]. split; [exact Hj|].
      split; [intros; apply Hf; lia|]. split; [exact Hbl|].
      intros i Hi. destruct (Hpt i Hi) as (k & Hk & Hv & _). eauto.
  Qed.
End Gti.
