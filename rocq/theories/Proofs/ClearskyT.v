(** ineichen with nan, Linke turbidity, haurwitz, solis, bird. *)
From Verif Require Import Base.Fl Base.FlFacts Base.Py Base.Trig Base.Series Model.Atmosphere Model.Tools Model.Clearsky Spec.ClearskySpec Proofs.ClearskyP.
From Coq Require Import Psatz List Lia.
Import ListNotations.
Open Scope R_scope.
Lemma fmul_nan_r x : fmul x NaN = NaN. Proof. destruct x; reflexivity. Qed.
Lemma fmul_nan_l x : fmul NaN x = NaN. Proof. reflexivity. Qed.
Lemma ineichen_nan_airmass z tl h i0 e : tl <> 0 -> 0 <= i0 -> ineichen #z NaN #tl #h #i0 e = {| cs_ghi := #0; cs_dni := #0; cs_dhi := #0 |}.
Proof.
  intros Ht Hi. unfold ineichen. rewrite cosd_fin, (fmax_fin (cosD z) 0). set (c := Rmax (cosD z) 0).
  assert (F0 : fexp NaN = NaN) by reflexivity. rewrite !fmul_nan_r, !fmul_nan_l, F0.
  replace (if e then NaN else NaN) with NaN by (destruct e; reflexivity). rewrite ?fmul_nan_r.
  replace (nfmax NaN #0) with #0 by reflexivity. fl1. rewrite (fdiv_fin (_ * tl) tl) by exact Ht. fl1. rewrite Rmult_0_r, Rmult_0_r.
  rewrite (fdiv_fin (- h) 8000) by lra. fl1. set (F := exp (- h / 8000)). assert (P : 0 < F) by apply exp_pos. rewrite (fdiv_fin 0.882 F) by lra. fl1.
  assert (0 < 0.882 / F) by (apply Rdiv_lt_0_compat; lra). rewrite (fdiv_fin _ (0.1 + 0.882 / F)) by lra. fl1. set (x := 1 - _ / _).
  assert (Q : exists q, nfmin (nfmax (fdiv #x #c) #0) #1e20 = #q). { destruct (fdiv #x #c); eexists; reflexivity. }
  destruct Q as (q & ->). fl1. rewrite fmin_fin. fl1. replace (0 * q) with 0 by ring. rewrite Rmin_left by lra. do 2 f_equal; ring.
Qed.
Lemma ineichen_nan z m tl h i0 e : (z = NaN \/ tl = NaN \/ h = NaN \/ i0 = NaN) -> ineichen z m tl h i0 e = {| cs_ghi := NaN; cs_dni := NaN; cs_dhi := NaN |}.
Proof.
  intros H.
  assert (A : forall g, fmul g NaN = NaN) by apply fmul_nan_r.
  assert (D : forall g, fdiv g NaN = NaN) by (intros []; reflexivity).
  assert (AD : forall g, fadd g NaN = NaN) by (intros []; reflexivity).
  assert (M : forall g, fmin g NaN = NaN) by (intros []; reflexivity).
  assert (G : cs_ghi (ineichen z m tl h i0 e) = NaN).
  { unfold ineichen. cbn [cs_ghi]. destruct H as [->|[->|[->| ->]]].
    - replace (fmax (cosd NaN) #0) with NaN by reflexivity. rewrite A. reflexivity.
    - rewrite A. reflexivity.
    - replace (fadd (fmul #5.09e-05 NaN) #0.868) with NaN by reflexivity. reflexivity.
    - rewrite A. reflexivity. }
  assert (N : cs_dni (ineichen z m tl h i0 e) = NaN).
  { unfold ineichen in G |- *. cbn [cs_ghi cs_dni] in G |- *. rewrite G. apply M. }
  unfold ineichen in G, N |- *. cbn [cs_ghi cs_dni] in G, N. rewrite N, G. reflexivity.
Qed.

(** ** linear interpolation *)
Definition ascends (l : list R) : Prop := forall i, (S i < length l)%nat -> nth i l 0 < nth (S i) l 0.
Lemma ascends_tail x l : ascends (x :: l) -> ascends l.
Proof. intros H i Hi. apply (H (S i)). cbn. lia. Qed.
Lemma ascends_le l i j : ascends l -> (i <= j < length l)%nat -> nth i l 0 <= nth j l 0.
Proof. intros H [H1 H2]. induction H1 as [|j H1 IH]; [lra|]. specialize (IH ltac:(lia)). specialize (H j H2). lra. Qed.
Lemma interp_from_seg xs : forall ys x0 y0 x i, length ys = length xs -> ascends (x0 :: xs) -> (S i < length (x0 :: xs))%nat ->
  nth i (x0 :: xs) 0 <= x <= nth (S i) (x0 :: xs) 0 ->
  interp_clamped_from x x0 y0 (combine xs ys) =
  nth i (y0 :: ys) 0 + (nth (S i) (y0 :: ys) 0 - nth i (y0 :: ys) 0) / (nth (S i) (x0 :: xs) 0 - nth i (x0 :: xs) 0) * (x - nth i (x0 :: xs) 0).
Proof.
  induction xs as [|x1 xs IH]; intros ys x0 y0 x i L A Hi Hx; [cbn in Hi; lia|].
  destruct ys as [|y1 ys]; [discriminate|]. cbn [combine interp_clamped_from]. assert (A01 : x0 < x1) by (apply (A 0%nat); cbn; lia).
  destruct i as [|i].
  - cbn [nth] in Hx |- *. destruct (Rltb_spec x x1) as [H|H]; [reflexivity|]. assert (E : x = x1) by lra. subst x.
    replace (y0 + (y1 - y0) / (x1 - x0) * (x1 - x0)) with y1 by (field; lra).
    destruct xs as [|x2 xs]; destruct ys as [|y2 ys]; try discriminate; [reflexivity|]. cbn [combine interp_clamped_from]. destruct (Rltb_spec x1 x2) as [H2|H2]; [ring|].
    exfalso. assert (x1 < x2) by (apply (A 1%nat); cbn; lia). lra.
  - assert (x1 <= x). { apply Rle_trans with (nth (S i) (x0 :: x1 :: xs) 0); [|apply Hx]. change x1 with (nth 1 (x0 :: x1 :: xs) 0). apply ascends_le; [exact A|cbn in Hi |- *; lia]. }
    rewrite Rltb_f by lra. apply (IH ys x1 y1 x i); [injection L; auto|apply ascends_tail with x0; exact A|cbn in Hi |- *; lia|exact Hx].
Qed.
Lemma np_interp_seg xs ys x i : length ys = length xs -> ascends xs -> (S i < length xs)%nat -> nth i xs 0 <= x <= nth (S i) xs 0 ->
  np_interp x xs ys = nth i ys 0 + (nth (S i) ys 0 - nth i ys 0) / (nth (S i) xs 0 - nth i xs 0) * (x - nth i xs 0).
Proof.
  destruct xs as [|x0 xs]; intros L A Hi Hx; [cbn in Hi; lia|]. destruct ys as [|y0 ys]; [discriminate|]. unfold np_interp. cbn [combine].
  assert (x0 <= nth i (x0 :: xs) 0). { change x0 with (nth 0 (x0 :: xs) 0) at 1. apply ascends_le; [exact A|lia]. }
  rewrite Rltb_f by lra. apply interp_from_seg; auto.
Qed.
Lemma interp_from_bounds xs : forall ys x0 y0 x lo hi, ascends (x0 :: xs) -> x0 <= x -> lo <= y0 <= hi -> Forall (fun y => lo <= y <= hi) ys ->
  lo <= interp_clamped_from x x0 y0 (combine xs ys) <= hi.
Proof.
  induction xs as [|x1 xs IH]; intros ys x0 y0 x lo hi A Hx H0 F; [cbn; exact H0|]. destruct F as [|y1 ys Hy F]; [cbn; exact H0|]. cbn [combine interp_clamped_from].
  assert (A01 : x0 < x1) by (apply (A 0%nat); cbn; lia). destruct (Rltb_spec x x1) as [H|H]; [|apply IH; [apply ascends_tail with x0; exact A|lra|exact Hy|exact F]].
  set (s := (x - x0) / (x1 - x0)). assert (S : 0 <= s <= 1). { unfold s. split; [apply Rmult_le_pos; [lra|left; apply Rinv_0_lt_compat; lra]|]. apply Rmult_le_reg_r with (x1 - x0); [lra|]. unfold Rdiv. rewrite Rmult_assoc, Rinv_l by lra. lra. }
  replace (y0 + (y1 - y0) / (x1 - x0) * (x - x0)) with ((1 - s) * y0 + s * y1) by (unfold s; field; lra).
  assert (0 <= (1 - s) * (y0 - lo)) by (apply Rmult_le_pos; lra). assert (0 <= s * (y1 - lo)) by (apply Rmult_le_pos; lra).
  assert (0 <= (1 - s) * (hi - y0)) by (apply Rmult_le_pos; lra). assert (0 <= s * (hi - y1)) by (apply Rmult_le_pos; lra). lra.
Qed.
Lemma np_interp_bounds x xs ys lo hi : ascends xs -> xs <> [] -> ys <> [] -> Forall (fun y => lo <= y <= hi) ys -> lo <= np_interp x xs ys <= hi.
Proof.
  destruct xs as [|x0 xs]; [intros _ N; exfalso; apply N; reflexivity|]. destruct ys as [|y0 ys]; [intros _ _ N; exfalso; apply N; reflexivity|]. intros A _ _ F. inversion F; subst. unfold np_interp. cbn [combine].
  destruct (Rltb_spec x x0); [assumption|]. apply interp_from_bounds; assumption || lra.
Qed.
(** ** months *)
Ltac mm := cbv [nth calendar_month_middles mdays set_nth firstn skipn app zip_with cumsum cumsum_from middle_of_month days_before month_lengths fold_right].
Lemma middles_ascend leap : ascends (calendar_month_middles leap).
Proof. intros i Hi. destruct leap; do 13 (destruct i as [|i]; [mm; lra|]); cbn in Hi; lia. Qed.
Lemma middles_length leap : length (calendar_month_middles leap) = 14%nat.
Proof. destruct leap; reflexivity. Qed.
Lemma middles_nth leap m : (m < 12)%nat -> nth (S m) (calendar_month_middles leap) 0 = middle_of_month leap m.
Proof. intros H. destruct leap; do 12 (destruct m as [|m]; [mm; lra|]); lia. Qed.
Lemma middles_first leap : nth 0 (calendar_month_middles leap) 0 = - 31 / 2.
Proof. destruct leap; mm; lra. Qed.
Lemma middles_last leap : nth 13 (calendar_month_middles leap) 0 = (if leap then 366 else 365) + 31 / 2.
Proof. destruct leap; mm; lra. Qed.
Definition lts14 (lts : list R) : list R := ([last lts 0] ++ lts ++ [hd 0 lts])%list.
Lemma lts14_facts lts : length lts = 12%nat -> length (lts14 lts) = 14%nat /\ nth 0 (lts14 lts) 0 = nth 11 lts 0 /\ nth 13 (lts14 lts) 0 = nth 0 lts 0 /\
  forall m, (m < 12)%nat -> nth (S m) (lts14 lts) 0 = nth m lts 0.
Proof.
  intros L. do 12 (destruct lts as [|? lts]; [discriminate|]). destruct lts; [|discriminate]. repeat split; try reflexivity.
  intros m H. do 12 (destruct m as [|m]; [reflexivity|]). lia.
Qed.
Lemma turbidity_where lts leap d : interpolate_turbidity lts leap d = np_interp d (calendar_month_middles leap) (lts14 lts).
Proof. destruct leap; reflexivity. Qed.
