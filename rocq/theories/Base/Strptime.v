(** Formatting of integers with zero padding, and matching of the formats %Y %j %m %d %H %M, as Python's str.format, str.zfill and strptime (regular expression with
    backtracking, first match, then no characters may remain).  A text is a list of characters, a digit being its value and the minus sign (or dash) -1 *)
From Coq Require Import ZArith Bool Lia List.
Import ListNotations.
Open Scope Z_scope.

Definition dash : Z := -1.
Definition digit (c : Z) : bool := (0 <=? c) && (c <=? 9).
(** the last n decimal digits *)
Fixpoint digs (n : nat) (x : Z) : list Z := match n with O => [] | S n' => digs n' (x / 10) ++ [x mod 10] end.
(** the number of decimal digits *)
Fixpoint ndig (fuel : nat) (x : Z) : nat := match fuel with O => 1%nat | S f => if x <? 10 then 1%nat else S (ndig f (x / 10)) end.
Definition decimals (x : Z) : nat := ndig (S (Z.to_nat (Z.log2 x))) x.
(** '{:0w}'.format(x), str(x).zfill(w): at least w characters, the sign first *)
Definition zpad (w : nat) (x : Z) : list Z :=
  if x <? 0 then dash :: digs (max (pred w) (decimals (- x))) (- x) else digs (max w (decimals x)) x.
Definition val (l : list Z) : Z := fold_left (fun a d => 10 * a + d) l 0.

(** a conversion: the widths tried are w, w-1, ..., wmin; a full width value must satisfy ok, a shorter one be at least lo *)
Inductive item := Lit (c : Z) | Fld (w wmin : nat) (ok : Z -> bool) (lo : Z).
Definition fY : item := Fld 4 4 (fun _ => true) 0.
Definition fj : item := Fld 3 1 (fun v => (1 <=? v) && (v <=? 366)) 1.
Definition fm : item := Fld 2 1 (fun v => (1 <=? v) && (v <=? 12)) 1.
Definition fd : item := Fld 2 1 (fun v => (1 <=? v) && (v <=? 31)) 1.
Definition fH : item := Fld 2 1 (fun v => v <=? 23) 0.
Definition fM : item := Fld 2 1 (fun v => v <=? 59) 0.
Fixpoint first_some {A B} (f : A -> option B) (l : list A) : option B := match l with [] => None | x :: l' => match f x with Some y => Some y | None => first_some f l' end end.
Definition widths (w wmin : nat) : list nat := map (fun i => (w - i)%nat) (seq 0 (S (w - wmin))).
Fixpoint smatch (fs : list item) (s : list Z) : option (list Z * list Z) :=
  match fs with
  | [] => Some ([], s)
  | Lit c :: fs' => match s with a :: r => if a =? c then smatch fs' r else None | [] => None end
  | Fld w wmin ok lo :: fs' =>
      first_some (fun k => let q := firstn k s in
                           if Nat.eqb (length q) k && forallb digit q && (if Nat.eqb k w then ok (val q) else lo <=? val q) then
                             match smatch fs' (skipn k s) with Some (vs, r) => Some (val q :: vs, r) | None => None end
                           else None) (widths w wmin)
  end.
Definition strptime (fs : list item) (s : list Z) : option (list Z) := match smatch fs s with Some (vs, []) => Some vs | _ => None end.

(** ** facts *)
Lemma digit_spec c : digit c = true <-> 0 <= c <= 9.
Proof. unfold digit. rewrite andb_true_iff, !Z.leb_le. tauto. Qed.
Lemma digs_length n x : length (digs n x) = n.
Proof. revert x. induction n as [|n IH]; intros x; [reflexivity|]. cbn [digs]. rewrite app_length, IH. cbn. lia. Qed.
Lemma digs_digits n x : Forall (fun c => digit c = true) (digs n x).
Proof.
  revert x. induction n as [|n IH]; intros x; [constructor|]. cbn [digs]. apply Forall_app. split; [apply IH|]. constructor; [|constructor].
  apply digit_spec. pose proof (Z.mod_pos_bound x 10). lia.
Qed.
Lemma val_app l c : val (l ++ [c]) = 10 * val l + c.
Proof. unfold val. rewrite fold_left_app. reflexivity. Qed.
Lemma val_digs n x : 0 <= x -> val (digs n x) = x mod 10 ^ Z.of_nat n.
Proof.
  revert x. induction n as [|n IH]; intros x H; [cbn; rewrite Z.mod_1_r; reflexivity|]. cbn [digs]. rewrite val_app, IH by (apply Z.div_pos; lia).
  replace (10 ^ Z.of_nat (S n)) with (10 * 10 ^ Z.of_nat n) by (rewrite Nat2Z.inj_succ, Z.pow_succ_r by lia; reflexivity).
  rewrite Z.rem_mul_r by (try apply Z.pow_nonzero; lia). ring.
Qed.
Lemma val_inj a b : length a = length b -> Forall (fun c => digit c = true) a -> Forall (fun c => digit c = true) b -> val a = val b -> a = b.
Proof.
  revert b. induction a as [|x a IH] using rev_ind; intros b L A B V.
  - destruct b; [reflexivity|discriminate].
  - destruct b as [|y b _] using rev_ind; [rewrite app_length in L; cbn in L; lia|].
    apply Forall_app in A. apply Forall_app in B. destruct A as [A1 A2], B as [B1 B2]. inversion A2; subst. inversion B2; subst. rewrite !val_app in V.
    rewrite digit_spec in *. rewrite !app_length in L. cbn [length] in L. assert (E : x = y /\ val a = val b) by lia. destruct E as [-> E]. f_equal. apply IH; [lia|assumption|assumption|exact E].
Qed.
Lemma ndig_ge : forall w fuel x, (w <= fuel)%nat -> 10 ^ Z.of_nat w <= x -> (w < ndig fuel x)%nat.
Proof.
  induction w as [|w IH]; intros fuel x F H.
  - destruct fuel; cbn; [lia|]. destruct (x <? 10); lia.
  - destruct fuel as [|fuel]; [lia|]. cbn [ndig]. rewrite Nat2Z.inj_succ, Z.pow_succ_r in H by lia. assert (1 <= 10 ^ Z.of_nat w) by (apply (Z.pow_le_mono_r 10 0); lia).
    destruct (Z.ltb_spec x 10); [lia|]. apply -> Nat.succ_lt_mono. apply IH; [lia|]. apply Z.div_le_lower_bound; lia.
Qed.
Lemma ndig_le : forall w fuel x, (0 < w)%nat -> 0 <= x < 10 ^ Z.of_nat w -> (ndig fuel x <= w)%nat.
Proof.
  induction w as [|w IH]; intros fuel x P H; [lia|]. destruct fuel as [|fuel]; [cbn; lia|]. cbn [ndig]. destruct (Z.ltb_spec x 10); [lia|].
  rewrite Nat2Z.inj_succ, Z.pow_succ_r in H by lia. destruct w as [|w]; [change (10 * 10 ^ Z.of_nat 0) with 10 in H; lia|].
  apply -> Nat.succ_le_mono. apply IH; [lia|]. split; [apply Z.div_pos; lia|apply Z.div_lt_upper_bound; lia].
Qed.
Lemma decimals_ge w x : 10 ^ Z.of_nat w <= x -> (w < decimals x)%nat.
Proof.
  intros H. unfold decimals. apply ndig_ge; [|exact H]. assert (P : 2 ^ Z.of_nat w <= 10 ^ Z.of_nat w) by (apply Z.pow_le_mono_l; lia).
  assert (1 <= 2 ^ Z.of_nat w) by (apply (Z.pow_le_mono_r 2 0); lia). assert (L : Z.of_nat w <= Z.log2 x). { apply Z.log2_le_pow2; lia. } lia.
Qed.
Lemma zpad_small w x : (0 < w)%nat -> 0 <= x < 10 ^ Z.of_nat w -> zpad w x = digs w x.
Proof. intros P H. unfold zpad. destruct (Z.ltb_spec x 0); [lia|]. rewrite Nat.max_l; [reflexivity|]. apply ndig_le; [exact P|exact H]. Qed.
Lemma zpad_length w x : (w <= length (zpad w x))%nat.
Proof. unfold zpad. destruct (x <? 0); cbn [length]; rewrite digs_length; lia. Qed.
Lemma zpad_big w x : 10 ^ Z.of_nat w <= x -> (w < length (zpad w x))%nat.
Proof.
  intros H. unfold zpad. assert (0 < 10 ^ Z.of_nat w) by (apply Z.pow_pos_nonneg; lia). destruct (Z.ltb_spec x 0); [lia|]. rewrite digs_length. pose proof (decimals_ge w x H). lia.
Qed.
Lemma zpad_digits w x : 0 <= x -> Forall (fun c => digit c = true) (zpad w x).
Proof. intros H. unfold zpad. destruct (Z.ltb_spec x 0); [lia|]. apply digs_digits. Qed.
Lemma zpad_neg w x : x < 0 -> exists l, zpad w x = dash :: l.
Proof. intros H. unfold zpad. destruct (Z.ltb_spec x 0); [eexists; reflexivity|lia]. Qed.
(** a padded number that is exactly w digits long is the number *)
Lemma zpad_exact w x q : (0 < w)%nat -> zpad w x = q -> length q = w -> Forall (fun c => digit c = true) q -> 0 <= x < 10 ^ Z.of_nat w /\ val q = x.
Proof.
  intros P E L D. destruct (Z.ltb_spec x 0) as [N|N].
  - destruct (zpad_neg w x N) as [l Z]. rewrite Z in E. subst q. inversion D as [|a b HD]; subst. discriminate.
  - destruct (Z.lt_ge_cases x (10 ^ Z.of_nat w)) as [B|B].
    + split; [lia|]. rewrite zpad_small in E by (assumption || (split; assumption)). subst q. rewrite val_digs by lia. apply Z.mod_small. lia.
    + pose proof (zpad_big w x B). rewrite E in H. lia.
Qed.

(** what a match means *)
Inductive sound : list item -> list Z -> list Z -> list Z -> Prop :=
| sound_nil s : sound [] [] s s
| sound_lit c fs vs s r : sound fs vs s r -> sound (Lit c :: fs) vs (c :: s) r
| sound_fld w wmin ok lo fs q vs s r : Forall (fun c => digit c = true) q -> (wmin <= length q <= w)%nat -> (length q = w -> ok (val q) = true) -> sound fs vs s r ->
    sound (Fld w wmin ok lo :: fs) (val q :: vs) (q ++ s) r.
Lemma first_some_In {A B} (f : A -> option B) l y : first_some f l = Some y -> exists x, In x l /\ f x = Some y.
Proof. induction l as [|x l IH]; [discriminate|]. cbn. destruct (f x) eqn:E; intros H; [injection H as <-; exists x; auto|]. destruct (IH H) as (z & I & F). exists z. auto. Qed.
Lemma smatch_sound : forall fs s vs r, (forall f, In f fs -> match f with Fld w wmin _ _ => (wmin <= w)%nat | _ => True end) -> smatch fs s = Some (vs, r) -> sound fs vs s r.
Proof.
  induction fs as [|[c|w wmin ok lo] fs IH]; intros s vs r W H.
  - injection H as <- <-. constructor.
  - cbn [smatch] in H. destruct s as [|a s]; [discriminate|]. destruct (Z.eqb_spec a c) as [->|]; [|discriminate]. constructor. apply IH; [intros f I; apply W; right; exact I|exact H].
  - cbn [smatch] in H. apply first_some_In in H. destruct H as (k & I & H). cbv zeta in H.
    destruct (Nat.eqb (length (firstn k s)) k && forallb digit (firstn k s) && (if Nat.eqb k w then ok (val (firstn k s)) else lo <=? val (firstn k s))) eqn:C; [|discriminate].
    rewrite !andb_true_iff in C. destruct C as [[C1 C2] C3]. apply Nat.eqb_eq in C1. destruct (smatch fs (skipn k s)) as [[vs' r']|] eqn:M; [|discriminate]. injection H as <- <-.
    rewrite <- (firstn_skipn k s) at 2. constructor.
    + apply Forall_forall. apply forallb_forall. exact C2.
    + unfold widths in I. apply in_map_iff in I. destruct I as (i & <- & I). apply in_seq in I. specialize (W (Fld w wmin ok lo) (or_introl eq_refl)). cbn in W. rewrite C1. lia.
    + intros E. rewrite C1 in E. subst k. rewrite Nat.eqb_refl in C3. exact C3.
    + apply IH; [intros f If; apply W; right; exact If|exact M].
Qed.
Lemma smatch_fld w wmin ok lo fs q s vs r : length q = w -> Forall (fun c => digit c = true) q -> ok (val q) = true -> smatch fs s = Some (vs, r) ->
  smatch (Fld w wmin ok lo :: fs) (q ++ s) = Some (val q :: vs, r).
Proof.
  intros L D V M. cbn [smatch]. unfold widths. cbn [seq map first_some]. rewrite Nat.sub_0_r. subst w. rewrite firstn_app, Nat.sub_diag, firstn_all, firstn_O, app_nil_r, !Nat.eqb_refl.
  rewrite (proj2 (forallb_forall digit q)) by (apply Forall_forall; exact D). rewrite V. cbn [andb]. rewrite skipn_app, Nat.sub_diag, skipn_all. cbn [app skipn]. rewrite M. reflexivity.
Qed.
Lemma smatch_lit c fs s : smatch (Lit c :: fs) (c :: s) = smatch fs s.
Proof. cbn [smatch]. rewrite Z.eqb_refl. reflexivity. Qed.

(** a format of full-width fields without literals, on a text of exactly that many characters or more *)
Definition total (fs : list item) : nat := fold_right (fun f a => match f with Lit _ => S a | Fld w _ _ _ => (w + a)%nat end) 0%nat fs.
Lemma sound_length fs vs s r : sound fs vs s r -> (length s <= total fs + length r)%nat.
Proof. intros H. induction H as [s|c fs vs s r H IH|w wmin ok lo fs q vs s r D L V H IH]; cbn [total fold_right] in *; [lia|cbn [length]; fold (total fs); lia|rewrite app_length; fold (total fs); lia]. Qed.
(** if the text is as long as the format allows, every field is at full width *)
Inductive exact_parts : list item -> list Z -> list Z -> Prop :=
| ep_nil : exact_parts [] [] []
| ep_lit c fs vs s : exact_parts fs vs s -> exact_parts (Lit c :: fs) vs (c :: s)
| ep_fld w wmin ok lo fs q vs s : Forall (fun c => digit c = true) q -> length q = w -> ok (val q) = true -> exact_parts fs vs s -> exact_parts (Fld w wmin ok lo :: fs) (val q :: vs) (q ++ s).
Lemma sound_exact fs vs s : sound fs vs s [] -> (total fs <= length s)%nat -> exact_parts fs vs s.
Proof.
  intros H. remember (@nil Z) as r eqn:R. induction H as [s|c fs vs s r H IH|w wmin ok lo fs q vs s r D L V H IH]; intros T; subst.
  - constructor.
  - constructor. apply IH; [reflexivity|]. cbn in T. fold (total fs) in T. lia.
  - pose proof (sound_length _ _ _ _ H) as B. cbn [length] in B. rewrite app_length in T. cbn [total fold_right] in T. fold (total fs) in T. assert (length q = w) by lia.
    constructor; [exact D|assumption|apply V; assumption|]. apply IH; [reflexivity|lia].
Qed.
Lemma exact_smatch fs vs s : exact_parts fs vs s -> strptime fs s = Some vs.
Proof.
  intros H. unfold strptime. assert (E : smatch fs s = Some (vs, [])).
  { induction H as [|c fs vs s H IH|w wmin ok lo fs q vs s D L V H IH]; [reflexivity|rewrite smatch_lit; exact IH|apply smatch_fld; assumption]. }
  rewrite E. reflexivity.
Qed.
Definition narrow (fs : list item) : Prop := forall f, In f fs -> match f with Fld w wmin _ _ => (wmin <= w)%nat | _ => True end.
Theorem strptime_exact fs vs s : narrow fs -> (total fs <= length s)%nat -> (strptime fs s = Some vs <-> exact_parts fs vs s).
Proof.
  intros N T. split; [|apply exact_smatch]. unfold strptime. destruct (smatch fs s) as [[vs' [|a r]]|] eqn:M; try discriminate. intros E. injection E as <-.
  apply sound_exact; [apply smatch_sound; [exact N|exact M]|exact T].
Qed.
Lemma exact_parts_length fs vs s : exact_parts fs vs s -> length s = total fs.
Proof. intros H. induction H; cbn [total fold_right] in *; [reflexivity|cbn [length]; fold (total fs); lia|rewrite app_length; fold (total fs); lia]. Qed.
Lemma app_eq_len {A} (a b c d : list A) : length a = length c -> a ++ b = c ++ d -> a = c /\ b = d.
Proof. revert c. induction a as [|x a IH]; intros [|y c] L E; try discriminate; [split; [reflexivity|exact E]|]. cbn in *. injection E as <- E. destruct (IH c (eq_add_S _ _ L) E). subst. auto. Qed.
(** the fields in a row, each number padded to the width of its field *)
Fixpoint padded (fs : list item) (xs : list Z) : list Z :=
  match fs, xs with Fld w _ _ _ :: fs', x :: xs' => zpad w x ++ padded fs' xs' | Lit c :: fs', _ => c :: padded fs' xs | _, _ => [] end.
Fixpoint fits (fs : list item) (xs : list Z) : Prop :=
  match fs, xs with
  | [], [] => True
  | Lit _ :: fs', _ => fits fs' xs
  | Fld w _ ok _ :: fs', x :: xs' => 0 <= x < 10 ^ Z.of_nat w /\ ok x = true /\ fits fs' xs'
  | _, _ => False
  end.
Fixpoint arity (fs : list item) : nat := match fs with [] => 0%nat | Lit _ :: fs' => arity fs' | _ :: fs' => S (arity fs') end.
Definition positive_width (fs : list item) : Prop := forall f, In f fs -> match f with Fld w _ _ _ => (0 < w)%nat | _ => True end.
Lemma padded_length fs xs : length xs = arity fs -> (total fs <= length (padded fs xs))%nat.
Proof.
  revert xs. induction fs as [|[c|w wmin ok lo] fs IH]; intros xs L; cbn in *; [lia|fold (total fs); specialize (IH xs L); lia|]. fold (total fs). destruct xs as [|x xs]; [discriminate|].
  rewrite app_length. pose proof (zpad_length w x). specialize (IH xs (eq_add_S _ _ L)). lia.
Qed.
Lemma padded_exact fs : positive_width fs -> forall xs vs, length xs = arity fs -> exact_parts fs vs (padded fs xs) <-> (vs = xs /\ fits fs xs).
Proof.
  intros P. induction fs as [|[c|w wmin ok lo] fs IH]; intros xs vs L.
  - cbn. destruct xs; [|discriminate]. split; [intros H; inversion H; auto|intros [-> _]; constructor].
  - assert (P' : positive_width fs) by (intros f I; apply P; right; exact I). cbn [padded fits]. split.
    + intros H. inversion H; subst. apply IH; assumption.
    + intros H. constructor. apply IH; assumption.
  - assert (P' : positive_width fs) by (intros f I; apply P; right; exact I). assert (PW : (0 < w)%nat) by (apply (P (Fld w wmin ok lo)); left; reflexivity).
    destruct xs as [|x xs]; [discriminate|]. cbn [padded fits]. assert (L' : length xs = arity fs) by (cbn in L; lia). split.
    + intros H. inversion H as [| |w' wmin' ok' lo' fs' q vs' s D Lq V E]; subst. pose proof (exact_parts_length _ _ _ E) as Ls. pose proof (padded_length fs xs L') as Lp. pose proof (zpad_length (length q) x) as Lz.
      match goal with E1 : q ++ s = _ |- _ => assert (EL := f_equal (@length Z) E1); rewrite !app_length in EL; destruct (app_eq_len q s (zpad (length q) x) (padded fs xs)) as [E2 E3]; [lia|exact E1|] end.
      subst s. destruct (zpad_exact (length q) x q) as [B VQ]; [exact PW|symmetry; exact E2|reflexivity|exact D|]. destruct (proj1 (IH P' xs vs' L') E) as [-> F]. rewrite VQ in *. split; [reflexivity|]. split; [exact B|split; [exact V|exact F]].
    + intros [-> (B & V & F)]. assert (VQ : val (zpad w x) = x) by (rewrite zpad_small by assumption; rewrite val_digs by lia; apply Z.mod_small; exact B). rewrite <- VQ at 1. constructor.
      * apply zpad_digits. lia.
      * rewrite zpad_small by assumption. apply digs_length.
      * rewrite VQ. exact V.
      * apply IH; [exact P'|exact L'|]. split; [reflexivity|exact F].
Qed.
(** numbers padded to the widths of the fields are read back exactly, and anything else is refused *)
Theorem strptime_padded fs xs vs : narrow fs -> positive_width fs -> length xs = arity fs -> strptime fs (padded fs xs) = Some vs <-> (vs = xs /\ fits fs xs).
Proof. intros N P L. rewrite strptime_exact; [apply padded_exact; assumption|exact N|apply padded_length; exact L]. Qed.
Lemma digs_app a b x : digs (a + b) x = digs a (x / 10 ^ Z.of_nat b) ++ digs b x.
Proof.
  revert x. induction b as [|b IH]; intros x; [rewrite Nat.add_0_r; cbn [digs Z.of_nat]; rewrite Z.pow_0_r, Z.div_1_r, app_nil_r; reflexivity|].
  rewrite Nat.add_succ_r. cbn [digs]. rewrite IH. rewrite <- app_assoc. f_equal. f_equal. rewrite Z.div_div by (try apply Z.pow_pos_nonneg; lia). f_equal. rewrite Nat2Z.inj_succ, Z.pow_succ_r by lia. ring.
Qed.
