(** Property C191 (localize_to_utc).  Model: Model/Localize.v. *)
From Coq Require Import ZArith Lia List Bool.
From Verif Require Import Base.Fl Base.Py Model.Tools Model.Localize.
Import ListNotations.
Open Scope list_scope.
Open Scope Z_scope.

(** a zone whose offsets are at most a day and whose changes are at least two days apart *)
Definition near (o : Z) : Prop := - us_per_day <= o <= us_per_day.
Fixpoint spaced (l : list (Z * Z)) : Prop :=
  match l with
  | [] => True
  | (t, o) :: l' => near o /\ match l' with [] => True | (t', _) :: _ => t + 2 * us_per_day <= t' end /\ spaced l'
  end.
Definition regular (z : tz) : Prop := near (first_offset z) /\ spaced (changes z).
(** the wall-clock time at an instant *)
Definition shows (z : tz) (u w : Z) : Prop := u + offset_at z u = w.

Lemma offset_near o l u : near o -> spaced l -> near (offset_from o l u).
Proof. revert o. induction l as [|[t o'] l IH]; intros o N S0; cbn [offset_from]; [exact N|]. destruct (u <? t); [exact N|]. cbn [spaced] in S0. apply IH; tauto. Qed.
(** before the first change of the rest the offset is the one before *)
Lemma offset_before o l u : match l with [] => True | (t, _) :: _ => u < t end -> offset_from o l u = o.
Proof. destruct l as [|[t o'] l]; intros H; cbn [offset_from]; [reflexivity|]. destruct (Z.ltb_spec u t); [reflexivity|lia]. Qed.
Lemma offset_between l : forall o u1 u u2, spaced l -> u1 <= u <= u2 -> u2 - u1 <= 2 * us_per_day -> offset_from o l u = offset_from o l u1 \/ offset_from o l u = offset_from o l u2.
Proof.
  induction l as [|[t o'] l IH]; intros o u1 u u2 S0 B D; [left; reflexivity|]. destruct S0 as (N & M & S0). cbn [offset_from]. destruct (Z.ltb_spec u t), (Z.ltb_spec u1 t), (Z.ltb_spec u2 t); try lia; auto.
  right. rewrite !offset_before; [reflexivity|destruct l as [|[t' ?] ?]; [exact I|lia]..].
Qed.
(** what fold=0 selects *)
Lemma fold_spec l : forall o w, near o -> spaced l -> let u := w - wall_offset_from o l w in
  (u + offset_from o l u = w /\ forall u', u' + offset_from o l u' = w -> u <= u') \/
  ((forall u', u' + offset_from o l u' <> w) /\ exists t p q, (exists x, In (t, x) l) /\ offset_from o l (t - 1) = p /\ offset_from o l t = q /\ t + p <= w < t + q /\ u = w - p).
Proof.
  induction l as [|[t o'] l IH]; intros o w N S0; cbn [wall_offset_from]; cbv zeta.
  - left. cbn [offset_from]. split; [lia|]. intros u' H. lia.
  - destruct S0 as (N' & M & S0). assert (D : 0 < us_per_day) by (unfold us_per_day; lia). destruct (Z.ltb_spec w (t + Z.max o o')) as [W|W].
    + destruct (Z.lt_ge_cases (w - o) t) as [L|L].
      * left. cbn [offset_from]. destruct (Z.ltb_spec (w - o) t); [|lia]. split; [lia|]. intros u' H1. destruct (Z.ltb_spec u' t); lia.
      * right. split.
        -- intros u' H. cbn [offset_from] in H. destruct (Z.ltb_spec u' t); [lia|]. destruct l as [|[t' o''] l]; [cbn [offset_from] in H; lia|]. cbn [offset_from] in H. destruct (Z.ltb_spec u' t'); [lia|].
           assert (Q : near (offset_from o'' l u')) by (cbn [spaced] in S0; apply offset_near; tauto). unfold near in *. lia.
        -- exists t, o, o'. split; [exists o'; left; reflexivity|]. cbn [offset_from]. destruct (Z.ltb_spec (t - 1) t); [|lia]. destruct (Z.ltb_spec t t); [lia|]. split; [reflexivity|]. split; [apply offset_before; destruct l as [|[t' ?] ?]; [exact I|lia]|]. lia.
    + specialize (IH o' w N' S0). cbv zeta in IH. set (u := w - wall_offset_from o' l w) in *.
      assert (SOL : forall u', u' + offset_from o ((t, o') :: l) u' = w -> t <= u' /\ u' + offset_from o' l u' = w).
      { intros u' H. cbn [offset_from] in H. destruct (Z.ltb_spec u' t); [lia|]. split; assumption. }
      destruct IH as [[E MIN]|[NO (t0 & p & q & IN & EP & EQ & B & EU)]].
      * left. assert (T : t <= u). { destruct (Z.lt_ge_cases u t) as [L|L]; [|exact L]. rewrite offset_before in E by (destruct l as [|[t' ?] ?]; [exact I|lia]). lia. }
        split; [cbn [offset_from]; destruct (Z.ltb_spec u t); lia|]. intros u' H. apply SOL in H. apply MIN. tauto.
      * right. split; [intros u' H; apply SOL in H; apply (NO u'); tauto|]. assert (T : t < t0).
        { destruct IN as [x IN]. clear -M S0 IN D. revert t M. induction l as [|[t' o''] l IH]; intros t M; [destruct IN|]. cbn [spaced] in S0. destruct IN as [IN|IN]; [injection IN as -> _; lia|]. assert (t' < t0) by (apply IH; tauto). lia. }
        exists t0, p, q. split; [destruct IN as [x IN]; exists x; right; exact IN|]. cbn [offset_from]. destruct (Z.ltb_spec (t0 - 1) t); [lia|]. destruct (Z.ltb_spec t0 t); [lia|]. auto.
Qed.
(** a datetime with a zone keeps its instant; a naive one becomes the first instant at which the clocks of the location show it, and, if they skip it, the instant that
    the offset before the change gives *)
Theorem C191_datetime : forall z t, regular z -> exists u, localize_datetime z t = Dt u (Some 0) /\
  match offset t with
  | Some o => u = wall t - o
  | None => (shows z u (wall t) /\ forall u', shows z u' (wall t) -> u <= u') \/
            ((forall u', ~ shows z u' (wall t)) /\ exists c, offset_at z (c - 1) <= wall t - c < offset_at z c /\ u = wall t - offset_at z (c - 1))
  end.
Proof.
  intros z t [N S0]. unfold localize_datetime. eexists. split; [reflexivity|]. destruct (offset t) as [o|]; [reflexivity|]. unfold shows, offset_at.
  destruct (fold_spec (changes z) (first_offset z) (wall t) N S0) as [H|[NO (c & p & q & _ & <- & <- & B & E)]]; [left; exact H|]. right. split; [exact NO|]. exists c. split; [lia|exact E].
Qed.
Print Assumptions C191_datetime.
(** an index with a zone keeps its instants; a naive one is converted exactly if its clock shows every time once; otherwise the first time shown twice or never decides *)
Lemma tz_localize_spec am ne z w : regular z ->
  match tz_localize am ne z w with
  | Ok u => shows z u w /\ forall u', shows z u' w -> u' = u
  | Err e => (e = am /\ exists a b, a <> b /\ shows z a w /\ shows z b w) \/ (e = ne /\ forall u, ~ shows z u w)
  end.
Proof.
  intros [N S0]. unfold tz_localize, shows. set (a := offset_at z (w - us_per_day)). set (b := offset_at z (w + us_per_day)).
  assert (SOL : forall u, u + offset_at z u = w -> u = w - a \/ u = w - b).
  { intros u H. pose proof (offset_near _ _ u N S0) as Q. fold (offset_at z u) in Q. unfold near in Q.
    destruct (offset_between (changes z) (first_offset z) (w - us_per_day) u (w + us_per_day) S0) as [E|E]; [lia|lia|left|right]; unfold a, b, offset_at; rewrite <- E; unfold offset_at in H; lia. }
  destruct (Z.eqb_spec (offset_at z (w - a)) a) as [A|A], (Z.eqb_spec (offset_at z (w - b)) b) as [B|B].
  - destruct (Z.eqb_spec (w - a) (w - b)) as [E|E].
    + split; [lia|]. intros u H. destruct (SOL u H); lia.
    + left. split; [reflexivity|]. exists (w - a), (w - b). split; [exact E|]. split; lia.
  - split; [lia|]. intros u H. destruct (SOL u H) as [->| ->]; [reflexivity|]. exfalso. apply B. lia.
  - split; [lia|]. intros u H. destruct (SOL u H) as [->| ->]; [|reflexivity]. exfalso. apply A. lia.
  - right. split; [reflexivity|]. intros u H. destruct (SOL u H) as [->| ->]; lia.
Qed.
Definition once (z : tz) (w u : Z) : Prop := shows z u w /\ forall u', shows z u' w -> u' = u.
Theorem C191_index : forall ambiguous nonexistent z i out, regular z -> localize_index ambiguous nonexistent z i = Ok out <->
  match i with Aware l => out = Aware l | Naive l => exists us, Forall2 (once z) l us /\ out = Aware us end.
Proof.
  intros am ne z i out R. destruct i as [l|l]; cbn [localize_index]; [|split; [intros H; injection H as <-; reflexivity|intros ->; reflexivity]].
  assert (K : forall us, mapM (tz_localize am ne z) l = Ok us <-> Forall2 (once z) l us).
  { induction l as [|w l IH]; intros us; cbn [mapM]; [split; [intros H; injection H as <-; constructor|intros H; inversion H; reflexivity]|]. pose proof (tz_localize_spec am ne z w R) as T. destruct (tz_localize am ne z w) as [u|e]; cbn [bind].
    - split.
      + destruct (mapM _ l) as [us'|]; cbn [bind]; [|discriminate]. intros H. injection H as <-. constructor; [exact T|]. apply IH. reflexivity.
      + intros H. inversion H as [|? u' ? us' [S1 _] F]; subst. rewrite (proj2 (IH us') F). cbn [bind]. rewrite (proj2 T u' S1). reflexivity.
    - split; [discriminate|]. intros H. inversion H as [|? u' ? us' [S1 U] F]; subst. exfalso. destruct T as [(_ & a & b & AB & A & B)|(_ & NO)]; [apply AB; rewrite (U a A), (U b B); reflexivity|exact (NO _ S1)]. }
  split.
  - destruct (mapM _ l) as [us|] eqn:E; cbn [bind]; [|discriminate]. intros H. injection H as <-. exists us. split; [apply K; reflexivity|reflexivity].
  - intros (us & F & ->). rewrite (proj2 (K us) F). reflexivity.
Qed.
Print Assumptions C191_index.
Theorem C191_errors : forall ambiguous nonexistent z l e, regular z -> localize_index ambiguous nonexistent z (Naive l) = Err e ->
  exists before w after, l = before ++ w :: after /\ (forall w', In w' before -> exists u, once z w' u) /\
    ((e = ambiguous /\ exists a b, a <> b /\ shows z a w /\ shows z b w) \/ (e = nonexistent /\ forall u, ~ shows z u w)).
Proof.
  intros am ne z l e R. cbn [localize_index]. destruct (mapM _ l) as [us|e'] eqn:E; cbn [bind]; [discriminate|]. intros H. injection H as ->. induction l as [|w l IH]; [discriminate E|].
  cbn [mapM] in E. pose proof (tz_localize_spec am ne z w R) as T. destruct (tz_localize am ne z w) as [u|e0]; cbn [bind] in E.
  - destruct (mapM _ l) as [us|e0]; cbn [bind] in E; [discriminate E|]. injection E as ->. destruct (IH eq_refl) as (bf & w' & af & -> & B & C). exists (w :: bf), w', af. split; [reflexivity|]. split; [|exact C].
    intros x [<-|I]; [exists u; exact T|apply B, I].
  - injection E as ->. exists [], w, l. split; [reflexivity|]. split; [intros x []|exact T].
Qed.
Print Assumptions C191_errors.
(** Finding: a wall-clock time that is shown twice is an error in an index but not as a datetime, which silently becomes the first of the two instants *)
Definition hour : Z := 3600 * 1000000.
Definition autumn : tz := {| first_offset := 2 * hour; changes := [(100 * hour, hour)] |}.
Theorem C191_index_differs_refuted : regular autumn /\ localize_datetime autumn (Dt (101 * hour) None) = Dt (99 * hour) (Some 0) /\
  localize_index ValueError KeyError autumn (Naive [101 * hour]) = Err ValueError.
Proof. split; [|split; reflexivity]. unfold regular, autumn, near, us_per_day, hour. cbn. unfold near, us_per_day. lia. Qed.
Print Assumptions C191_index_differs_refuted.
Definition spring : tz := {| first_offset := hour; changes := [(100 * hour, 2 * hour); (400 * hour, hour)] |}.
Example C191_example : regular spring /\ localize_datetime spring (Dt (101 * hour) None) = Dt (100 * hour) (Some 0) /\ localize_datetime spring (Dt (50 * hour) (Some (5 * hour))) = Dt (45 * hour) (Some 0) /\
  localize_index ValueError KeyError spring (Naive [50 * hour; 300 * hour]) = Ok (Aware [49 * hour; 298 * hour]) /\ localize_index ValueError KeyError spring (Naive [101 * hour]) = Err KeyError.
Proof. split; [|repeat split]. unfold regular, spring, near, us_per_day, hour. cbn. unfold near, us_per_day. lia. Qed.
