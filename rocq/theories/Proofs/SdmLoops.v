(** Facts on the loops of the Sandia fits (Model/SdmSandia.v). *)
From Verif Require Import Base.Fl Base.FlFacts Base.Py Base.Series Model.IvUtils Model.SingleDiode Model.Pvsystem Model.Clearsky Proofs.ClearskyD Model.SdmSandia.
From Coq Require Import String Psatz.
Open Scope R_scope.
Open Scope list_scope.
Import ListNotations.

Lemma zw_nth {A B C} (f : A -> B -> C) : forall l m i a b, nth_error l i = Some a -> nth_error m i = Some b -> nth_error (zip_with f l m) i = Some (f a b).
Proof. induction l as [|x l IH]; intros [|y m] [|i] a b H1 H2; try discriminate; cbn in *; [congruence|]. apply IH; assumption. Qed.
Lemma comb_nth {A B} : forall (l : list A) (m : list B) i a b, nth_error l i = Some a -> nth_error m i = Some b -> nth_error (combine l m) i = Some (a, b).
Proof. induction l as [|x l IH]; intros [|y m] [|i] a b H1 H2; try discriminate; cbn in *; [congruence|]. apply IH; assumption. Qed.
Lemma nth_ex {A} (l : list A) i : (i < List.length l)%nat -> exists a, nth_error l i = Some a.
Proof. intros H. destruct (nth_error l i) eqn:E; [eauto|]. apply nth_error_None in E. lia. Qed.
Lemma nth_lt {A} (l : list A) i a : nth_error l i = Some a -> (i < List.length l)%nat.
Proof. intros H. apply nth_error_Some. congruence. Qed.
Lemma scatter_length {A} : forall u (new old : list A), List.length (scatter u new old) = List.length old.
Proof. induction u as [|[] u IH]; intros new [|o old]; try reflexivity; cbn [scatter]; destruct new; cbn [List.length]; rewrite ?IH; reflexivity. Qed.
Lemma scatter_false {A} : forall u (new old : list A) i, nth_error u i = Some false -> nth_error (scatter u new old) i = nth_error old i.
Proof.
  induction u as [|b u IH]; intros new [|o old] [|i] H; try discriminate; try (destruct b; reflexivity).
  - cbn in H. injection H as ->. reflexivity.
  - cbn in H. destruct b; cbn [scatter]; [|cbn; apply IH; exact H]. destruct new as [|n new]; [reflexivity|]. cbn. apply IH. exact H.
Qed.
(** the k-th selected element goes to the k-th selected place *)
Lemma select_scatter {A B} (f : A -> B) : forall u (l : list A) (old : list B), List.length l = List.length u -> List.length old = List.length u ->
  scatter u (map f (select u l)) old = zip_with (fun (r : bool * A) o => if fst r then f (snd r) else o) (combine u l) old.
Proof.
  induction u as [|b u IH]; intros [|a l] [|o old] H1 H2; try discriminate; try reflexivity. cbn in H1, H2. unfold select in *. cbn [combine filter fst].
  destruct b; cbn [map scatter zip_with fst snd filter]; rewrite IH by lia; reflexivity.
Qed.
Lemma set_nth_length {A} : forall (l : list A) i x, List.length (set_nth i x l) = List.length l.
Proof. induction l as [|y l IH]; intros [|i] x; simpl; rewrite ?IH; reflexivity. Qed.
Lemma set_nth_same {A} : forall (l : list A) i x, (i < List.length l)%nat -> nth_error (set_nth i x l) i = Some x.
Proof. induction l as [|y l IH]; intros [|i] x H; cbn in *; try lia; [reflexivity|]. apply IH. lia. Qed.
Lemma set_nth_other {A} : forall (l : list A) i j x, i <> j -> nth_error (set_nth i x l) j = nth_error l j.
Proof. induction l as [|y l IH]; intros [|i] [|j] x H; cbn; try reflexivity; try congruence. apply IH. lia. Qed.

Section Loops.
Variable big : R.
Lemma filter_length cs st : List.length cs = List.length st -> List.length (filter_params cs st) = List.length cs.
Proof. intros H. unfold filter_params. rewrite zip_with_length. lia. Qed.
Lemma filter_nth cs st i c p : nth_error cs i = Some c -> nth_error st i = Some p -> nth_error (filter_params cs st) i = Some (good (efficiency cs) c p).
Proof. intros C P. unfold filter_params. apply zw_nth; assumption. Qed.
(** the filter looks at io, rs and rsh only *)
Lemma good_same eff c p p' : q_io p' = q_io p -> q_rs p' = q_rs p -> q_rsh p' = q_rsh p -> good eff c p' = good eff c p.
Proof. intros A B C. unfold good. rewrite A, B, C. reflexivity. Qed.

Lemma refine_io_ok cs nn u st st' : List.length nn = List.length cs -> List.length st = List.length cs -> refine_io big cs nn u st = Ok st' ->
  List.length st' = List.length cs /\
  forall i c a p, nth_error cs i = Some c -> nth_error nn i = Some a -> nth_error st i = Some p ->
  exists p', nth_error st' i = Some p' /\ q_rs p' = q_rs p /\ q_rsh p' = q_rsh p /\ (nth_error u i = Some false -> q_io p' = q_io p) /\ q_iph p' = iph_from_isc c a p'.
Proof.
  intros L1 L2 E. unfold refine_io in E. cbv zeta in E. destruct (update_io big (select u (zip_with _ (combine cs nn) st))) as [io|] eqn:EI; [|discriminate]. cbn [bind] in E. apply (f_equal (fun r => match r with Ok x => x | _ => st end)) in E. subst st'.
  split. { rewrite !zip_with_length, combine_length, scatter_length, map_length. lia. }
  intros i c a p C N P. destruct (nth_ex (scatter u io (map q_io st)) i) as [x X]. { rewrite scatter_length, map_length. apply nth_lt in P. exact P. }
  exists (with_iph (iph_from_isc c a (with_io x p)) (with_io x p)). split.
  { apply (zw_nth (fun ca p => with_iph (iph_from_isc (fst ca) (snd ca) p) p) (combine cs nn) _ i (c, a)); [apply comb_nth; assumption|]. apply (zw_nth with_io); assumption. }
  split; [reflexivity|]. split; [reflexivity|]. split; [|reflexivity]. intros F. cbn. rewrite scatter_false in X by exact F. rewrite (map_nth_error q_io i st P) in X. congruence.
Qed.
Lemma refine_io_err cs nn u st e : refine_io big cs nn u st = Err e -> e = ValueError /\ select u (zip_with (fun ca p => (#(c_voc (fst ca)), snd ca, p)) (combine cs nn) st) = [].
Proof.
  intros E. unfold refine_io in E. cbv zeta in E. set (rows := select u _) in *. unfold update_io in E.
  assert (K : forall fuel rows io e, List.length io = List.length rows -> io_loop big fuel rows io = Err e -> e = ValueError /\ rows = []).
  { clear. induction fuel as [|fuel IH]; intros rows io e L E; [discriminate|]. cbn [io_loop] in E.
    assert (LL : List.length (io_round big rows io) = List.length rows) by (unfold io_round; rewrite zip_with_length; lia).
    destruct (np_max _) as [m|] eqn:M; cbn [bind] in E.
    - destruct (fgtb _ _) in E; [apply (IH _ _ _ LL E)|discriminate].
    - unfold np_max in M. destruct (zip_with io_change (io_round big rows io) io) eqn:Z; [|discriminate].
      assert (LZ : List.length (zip_with io_change (io_round big rows io) io) = List.length rows) by (rewrite zip_with_length; lia). rewrite Z in LZ. split; [congruence|]. destruct rows; [reflexivity|discriminate]. }
  destruct (io_loop big 9 rows _) eqn:EL; cbn [bind] in E; [discriminate|]. assert (e0 = e) by congruence. subst e0. apply (K _ _ _ _ (map_length _ _) EL).
Qed.

(** *** the initial estimates *)
Definition meets_isc (cs : list curve) (nn : list fl) (st : list pars) : Prop :=
  forall i c a p, nth_error cs i = Some c -> nth_error nn i = Some a -> nth_error st i = Some p -> q_iph p = iph_from_isc c a p.
(** what is known once the curves below [k] are done *)
Definition started (cs : list curve) (nn rsh : list fl) (k : nat) (st : list pars) : Prop :=
  List.length st = List.length cs /\ (forall i r, nth_error rsh i = Some r -> (i < List.length cs)%nat -> exists p, nth_error st i = Some p /\ q_rsh p = r) /\
  (forall i c a r p, (i < k)%nat -> nth_error cs i = Some c -> nth_error nn i = Some a -> nth_error rsh i = Some r -> nth_error st i = Some p ->
     q_rs p = q_rs (initial_pars c a r) /\ (fgtb r #0 = false -> q_io p = NaN)).
Lemma initial_loop_ok cs nn rsh : List.length nn = List.length cs -> List.length rsh = List.length cs ->
  forall todo k st u, todo = seq k (List.length cs - k) -> (k <= List.length cs)%nat -> started cs nn rsh k st ->
  (match u with Some _ => (0 < k)%nat /\ meets_isc cs nn st | None => k = O end) ->
  forall st' u', initial_loop big cs nn todo st u = Ok (st', u') -> (0 < List.length cs)%nat /\ started cs nn rsh (List.length cs) st' /\ meets_isc cs nn st' /\
    ((0 < List.length todo)%nat -> exists s, List.length s = List.length cs /\ u' = filter_params cs s /\ refine_io big cs nn u' s = Ok st').
Proof.
  intros L1 L2. induction todo as [|j todo IH]; intros k st u T K H HU st' u' E.
  - assert (k = List.length cs). { destruct (List.length cs - k)%nat eqn:D; [lia|discriminate]. } subst k. cbn [initial_loop] in E. destruct u as [u|]; [|discriminate]. injection E as -> ->. split; [apply HU|]. split; [exact H|]. split; [apply HU|]. cbn. lia.
  - destruct (List.length cs - k)%nat as [|m] eqn:D; [discriminate|]. cbn [seq] in T. injection T as -> T. cbn [initial_loop] in E. cbv zeta in E.
    set (p := initial_pars _ _ _) in E. set (s := set_nth k p st) in E. destruct H as (HL & HR & HP).
    assert (Ls : List.length s = List.length cs) by (unfold s; rewrite set_nth_length; exact HL).
    destruct (refine_io big cs nn (filter_params cs s) s) as [st1|] eqn:ER; [|discriminate]. cbn [bind] in E.
    destruct (refine_io_ok cs nn (filter_params cs s) s st1 L1 Ls ER) as (Ls1 & F).
    destruct (nth_ex rsh k) as [rk Rk]; [lia|]. destruct (nth_ex cs k) as [ck Ck]; [lia|]. destruct (nth_ex nn k) as [ak Ak]; [lia|]. destruct (HR k rk Rk ltac:(lia)) as (pk & Pk & Qk).
    assert (Ep : p = initial_pars ck ak rk). { unfold p. rewrite (nth_error_nth _ _ _ Ck), (nth_error_nth _ _ _ Ak), (nth_error_nth _ _ _ Pk), Qk. reflexivity. }
    assert (Rp : q_rsh p = rk). { rewrite Ep. unfold initial_pars. destruct (fgtb rk #0); reflexivity. }
    assert (ST : started cs nn rsh (S k) st1).
    { split; [exact Ls1|]. split.
      - intros i r Hr Hi. destruct (nth_ex s i) as [q Q]; [lia|]. destruct (nth_ex cs i) as [c C]; [lia|]. destruct (nth_ex nn i) as [a A]; [lia|]. destruct (F i c a q C A Q) as (q' & Q' & _ & B & _). exists q'. split; [exact Q'|]. rewrite B.
        destruct (Nat.eq_dec k i) as [->|N].
        + unfold s in Q. rewrite set_nth_same in Q by lia. congruence.
        + unfold s in Q. rewrite set_nth_other in Q by exact N. destruct (HR i r Hr Hi) as (q0 & Q0 & R0). congruence.
      - intros i c a r q' Hi C A Hr Q'. destruct (nth_ex s i) as [q Q]; [apply nth_lt in C; lia|]. destruct (F i c a q C A Q) as (q'' & Q'' & B1 & B2 & B3 & _). assert (q'' = q') by congruence. subst q''.
        assert (X : q_rs q = q_rs (initial_pars c a r) /\ (fgtb r #0 = false -> q_io q = NaN)).
        { destruct (Nat.eq_dec k i) as [->|N].
          - unfold s in Q. rewrite set_nth_same in Q by lia. assert (q = initial_pars c a r) by congruence. subst q. split; [reflexivity|]. intros G. unfold initial_pars. rewrite G. reflexivity.
          - unfold s in Q. rewrite set_nth_other in Q by exact N. apply (HP i c a r q); try assumption. lia. }
        split; [rewrite B1; apply X|]. intros G. rewrite B3; [apply X, G|]. rewrite (filter_nth cs s i c q C Q). f_equal.
        unfold good. rewrite (proj2 X G). cbn [fleb isnan]. rewrite !Bool.orb_true_r. cbn [negb]. rewrite !Bool.andb_false_r. reflexivity. }
    assert (MI : meets_isc cs nn st1).
    { intros i c a q C A Q. destruct (nth_ex s i) as [q0 Q0]; [apply nth_lt in C; lia|]. destruct (F i c a q0 C A Q0) as (q'' & Q'' & _ & _ & _ & B). assert (q'' = q) by congruence. subst q''. exact B. }
    specialize (IH (S k) st1 (Some (filter_params cs s))). destruct (IH ltac:(replace (List.length cs - S k)%nat with m by lia; exact T) ltac:(lia) ST (conj (Nat.lt_0_succ k) MI) st' u' E) as (G1 & G2 & G3 & G4).
    split; [exact G1|]. split; [exact G2|]. split; [exact G3|]. intros _. destruct todo as [|t todo].
    + cbn [initial_loop] in E. injection E as <- <-. exists s. repeat split; assumption.
    + apply G4. cbn. lia.
Qed.
Lemma initial_err cs nn : forall todo st u e, initial_loop big cs nn todo st u = Err e -> e = ValueError \/ (e = UnboundLocalError /\ todo = [] /\ u = None).
Proof.
  induction todo as [|j todo IH]; intros st u e E; cbn [initial_loop] in E.
  - destruct u; [discriminate|]. right. repeat split. congruence.
  - cbv zeta in E. destruct (refine_io _ _ _ _ _) as [s|] eqn:R; cbn [bind] in E.
    + destruct (IH _ _ _ E) as [H|(_ & _ & H)]; [left; exact H|discriminate].
    + assert (e0 = e) by congruence. subst e0. apply refine_io_err in R. left. apply R.
Qed.

(** *** the refinement *)
Definition updated (c : curve) (a : fl) (p : pars) : pars :=
  let p := with_rsh (update_rsh_fixed_pt big #(c_vmp c) #(c_imp c) (q_iph p) (q_io p) (q_rsh p) a) p in
  with_rs (update_rs big #(c_vmp c) #(c_imp c) (q_iph p) (q_io p) (q_rsh p) a) p.
Lemma pars_rsh X Y p : q_rsh (with_rs X (with_rsh Y p)) = Y. Proof. reflexivity. Qed.
Lemma pars_rs X Y p : q_rs (with_rs X (with_rsh Y p)) = X. Proof. reflexivity. Qed.
Lemma pars_keep Y p : q_iph (with_rsh Y p) = q_iph p /\ q_io (with_rsh Y p) = q_io p /\ q_rsh (with_rsh Y p) = Y. Proof. repeat split. Qed.
Lemma updated_rsh c a p : q_rsh (updated c a p) = update_rsh_fixed_pt big #(c_vmp c) #(c_imp c) (q_iph p) (q_io p) (q_rsh p) a.
Proof. unfold updated. cbv zeta. apply pars_rsh. Qed.
Lemma updated_rs c a p : q_rs (updated c a p) = update_rs big #(c_vmp c) #(c_imp c) (q_iph p) (q_io p) (q_rsh (updated c a p)) a.
Proof. rewrite updated_rsh. unfold updated. cbv zeta. rewrite pars_rs. generalize (update_rsh_fixed_pt big #(c_vmp c) #(c_imp c) (q_iph p) (q_io p) (q_rsh p) a). intros Y. destruct (pars_keep Y p) as (-> & -> & ->). reflexivity. Qed.
Lemma refine_all_ok cs nn st u st' u' : List.length nn = List.length cs -> List.length st = List.length cs -> List.length u = List.length cs -> refine_all big cs nn st u = Ok (st', u') ->
  List.length st' = List.length cs /\ u' = filter_params cs st' /\ meets_isc cs nn st' /\
  forall i c a p b, nth_error cs i = Some c -> nth_error nn i = Some a -> nth_error st i = Some p -> nth_error u i = Some b ->
  exists p', nth_error st' i = Some p' /\ let q := if b then updated c a p else p in q_rs p' = q_rs q /\ q_rsh p' = q_rsh q /\ (good (efficiency cs) c q = false -> q_io p' = q_io p).
Proof.
  intros L1 L2 L3 E. unfold refine_all in E. cbv zeta in E.
  set (f1 := fun (c : curve) (a : fl) (p : pars) => with_rsh (update_rsh_fixed_pt big #(c_vmp c) #(c_imp c) (q_iph p) (q_io p) (q_rsh p) a) p).
  set (f2 := fun (c : curve) (a : fl) (p : pars) => with_rs (update_rs big #(c_vmp c) #(c_imp c) (q_iph p) (q_io p) (q_rsh p) a) p).
  set (upd := fun (f : curve -> fl -> pars -> pars) (s : list pars) => zip_with (fun (r : bool * (curve * fl)) (p : pars) => let '(b, (c, a)) := r in if b then f c a p else p) (combine u (combine cs nn)) s).
  match type of E with (let* _ := refine_io _ _ _ (filter_params _ ?x) ?x in _) = _ => change x with (upd f2 (upd f1 st)) in E end.
  assert (LU : forall f s, List.length s = List.length cs -> List.length (upd f s) = List.length cs). { intros f s Hs. unfold upd. rewrite zip_with_length, !combine_length. lia. }
  assert (UN : forall f s i c a p b, nth_error cs i = Some c -> nth_error nn i = Some a -> nth_error s i = Some p -> nth_error u i = Some b -> nth_error (upd f s) i = Some (if b then f c a p else p)).
  { intros f s i c a p b C A P B. unfold upd. erewrite zw_nth; [|apply comb_nth; [exact B|apply comb_nth; [exact C|exact A]]|exact P]. reflexivity. }
  set (s2 := upd f2 (upd f1 st)) in *. assert (LS : List.length s2 = List.length cs) by (unfold s2; rewrite !LU; auto).
  destruct (refine_io big cs nn (filter_params cs s2) s2) as [s|] eqn:ER; [|discriminate]. cbn [bind] in E. injection E as <- <-.
  destruct (refine_io_ok cs nn _ s2 s L1 LS ER) as (LR & F). split; [exact LR|]. split; [reflexivity|]. split.
  - intros i c a q C A Q. destruct (nth_ex s2 i) as [q0 Q0]; [apply nth_lt in C; lia|]. destruct (F i c a q0 C A Q0) as (q'' & Q'' & _ & _ & _ & B). assert (q'' = q) by congruence. subst q''. exact B.
  - intros i c a p b C A P B. pose proof (UN f2 (upd f1 st) i c a _ b C A (UN f1 st i c a p b C A P B) B) as Q.
    destruct (F i c a _ C A Q) as (p' & P' & R1 & R2 & R3 & _). exists p'. split; [exact P'|]. cbv zeta.
    assert (EQ : (if b then f2 c a (if b then f1 c a p else p) else if b then f1 c a p else p) = if b then updated c a p else p) by (destruct b; reflexivity). rewrite EQ in *.
    split; [exact R1|]. split; [exact R2|]. intros G. rewrite R3; [destruct b; reflexivity|]. fold s2 in Q. rewrite (filter_nth cs s2 i c _ C Q), G. reflexivity.
Qed.
End Loops.
