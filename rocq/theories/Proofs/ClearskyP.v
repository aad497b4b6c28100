(** Clear-sky models: ineichen, haurwitz, simplified_solis, bird. *)
From Verif Require Import Base.Fl Base.FlFacts Base.Py Base.Trig Model.Atmosphere Model.Clearsky Spec.ClearskySpec.
From Coq Require Import Psatz.
Open Scope R_scope.

Lemma nfmax_fin a b : nfmax #a #b = #(Rmax a b).
Proof. reflexivity. Qed.
Lemma nfmin_fin a b : nfmin #a #b = #(Rmin a b).
Proof. reflexivity. Qed.
Lemma exp_pos' x : 0 < exp x. Proof. apply exp_pos. Qed.

Ltac fl1 := repeat rewrite ?fmul_fin, ?fadd_fin, ?fsub_fin, ?fneg_fin, ?fexp_fin.
Section Ineichen.
Variables (z m tl h i0 : R) (enh : bool).
Hypothesis Htl : tl <> 0.
Hypothesis Hen : enh = false \/ 0 < m.
Let c := Rmax (cosD z) 0.
Let F1 := exp (- h / 8000).
Lemma enh_fin g : (if enh then fmul #g (fexp (fmul #0.01 (fpow #m #1.8))) else #g) = #(g * (if enh then exp (0.01 * Rpower m 1.8) else 1)).
Proof. destruct enh; [destruct Hen as [E|P]; [discriminate|]; rewrite fpow_fin by exact P; fin; reflexivity|f_equal; ring]. Qed.
Lemma den_pos : 0 < 0.1 + 0.882 / F1.
Proof. assert (0 < 0.882 / F1) by (apply Rdiv_lt_0_compat; [lra|apply exp_pos]). lra. Qed.
Lemma ineichen_ghi_fin : cs_ghi (ineichen #z #m #tl #h #i0 enh) = #(ip_ghi enh c m tl h i0).
Proof.
  unfold ineichen. cbn [cs_ghi]. rewrite cosd_fin. rewrite (fmax_fin (cosD z) 0). fold c. repeat rewrite ?fmul_fin, ?fadd_fin, ?fsub_fin, ?fneg_fin. rewrite !fdiv_fin by lra.
  repeat rewrite ?fmul_fin, ?fadd_fin, ?fsub_fin, ?fneg_fin, ?fexp_fin. rewrite enh_fin, nfmax_fin, fmul_fin. f_equal. unfold ip_ghi.
  rewrite Rmax_left. 2:{ left. apply Rmult_lt_0_compat; [apply exp_pos|]. destruct enh; [apply exp_pos|lra]. }
  replace ((5.09e-05 * h + 0.868) * i0 * c * tl / tl) with ((5.09e-05 * h + 0.868) * i0 * c) by (field; exact Htl).
  rewrite <- Rmult_assoc. reflexivity.
Qed.
Lemma ineichen_dni_day : 0 < cosD z -> 0 <= ip_beam_share tl h -> cs_dni (ineichen #z #m #tl #h #i0 enh) = #(ip_dni 1e20 enh (cosD z) m tl h i0).
Proof.
  intros Pc PS. pose proof den_pos as PD. assert (Ec : c = cosD z) by (unfold c; apply Rmax_left; lra).
  pose proof ineichen_ghi_fin as G. unfold ineichen in G |- *. cbn [cs_ghi cs_dni] in G |- *. rewrite G. clear G. rewrite Ec.
  rewrite cosd_fin, (fmax_fin (cosD z) 0), Rmax_left by lra.
  fl1. rewrite (fdiv_fin (- h) 8000) by lra. fl1. fold F1. rewrite (fdiv_fin 0.163), (fdiv_fin 0.882) by (apply Rgt_not_eq, exp_pos). fl1. rewrite (fdiv_fin _ (0.1 + 0.882 / F1)) by lra. fl1.
  rewrite fdiv_fin by lra. rewrite !nfmax_fin, nfmin_fin, !fmul_fin, fmin_fin.
  unfold ip_dni, ip_beam. fold F1. f_equal. f_equal.
  - rewrite Rmax_left; [ring|]. left. apply Rmult_lt_0_compat; [|apply exp_pos]. assert (0 < 0.163 / F1) by (apply Rdiv_lt_0_compat; [lra|apply exp_pos]). lra.
  - f_equal. f_equal. unfold ip_beam_share. fold F1. apply Rmax_left. apply Rmult_le_pos; [exact PS|left; apply Rinv_0_lt_compat; exact Pc].
Qed.
Lemma ineichen_fin : exists d, cs_dni (ineichen #z #m #tl #h #i0 enh) = #d /\
  (cosD z <= 0 -> d = Rmin (i0 * Rmax ((0.664 + 0.163 / F1) * exp (-0.09 * m * (tl - 1))) 0) 0) /\
  cs_dhi (ineichen #z #m #tl #h #i0 enh) = #(ip_ghi enh c m tl h i0 - d * c).
Proof.
  pose proof den_pos as PD. pose proof ineichen_ghi_fin as G.
  assert (D : exists q, 0 <= q /\ cs_dni (ineichen #z #m #tl #h #i0 enh) = #(Rmin (i0 * Rmax ((0.664 + 0.163 / F1) * exp (-0.09 * m * (tl - 1))) 0) (ip_ghi enh c m tl h i0 * q))).
  { unfold ineichen in G |- *. cbn [cs_ghi cs_dni] in G |- *. rewrite G. clear G.
    rewrite cosd_fin, (fmax_fin (cosD z) 0). fold c.
    fl1. rewrite (fdiv_fin (- h) 8000) by lra. fl1. fold F1. rewrite (fdiv_fin 0.163), (fdiv_fin 0.882) by (apply Rgt_not_eq, exp_pos). fl1. rewrite (fdiv_fin _ (0.1 + 0.882 / F1)) by lra. fl1.
    rewrite (nfmax_fin (_ * exp _) 0), fmul_fin.
    set (x := 1 - _ / _). assert (Q : exists q, 0 <= q /\ nfmin (nfmax (fdiv #x #c) #0) #1e20 = #q).
    { destruct (fdiv #x #c) as [y| | |].
      - exists (Rmin (Rmax y 0) 1e20). split; [apply Rmin_glb; [apply Rmax_r|lra]|reflexivity].
      - exists 1e20. split; [lra|reflexivity].
      - exists (Rmin 0 1e20). split; [rewrite Rmin_left; lra|reflexivity].
      - exists (Rmin 0 1e20). split; [rewrite Rmin_left; lra|reflexivity]. }
    destruct Q as (q & Hq & ->). exists q. split; [exact Hq|]. rewrite fmul_fin, fmin_fin. reflexivity. }
  destruct D as (q & Hq & D). eexists. split; [exact D|]. split.
  - intros N. assert (E : c = 0) by (unfold c; apply Rmax_right; lra). unfold ip_ghi at 1. rewrite E. f_equal. ring.
  - unfold ineichen in D, G |- *. cbn [cs_ghi cs_dni cs_dhi] in D, G |- *. rewrite D, G. rewrite cosd_fin, (fmax_fin (cosD z) 0). fold c. rewrite fmul_fin, fsub_fin. reflexivity.
Qed.
End Ineichen.
Lemma share_range tl h : ln 2 <= tl -> 0 <= ip_beam_share tl h <= 1.
Proof.
  intros H. unfold ip_beam_share. set (F := exp (- h / 8000)). assert (P : 0 < 0.882 / F) by (apply Rdiv_lt_0_compat; [lra|apply exp_pos]).
  assert (E : 0 < exp (- tl) <= 1 / 2). { split; [apply exp_pos|]. replace (1 / 2) with (exp (- ln 2)) by (rewrite exp_Ropp, exp_ln by lra; field). destruct (Req_dec tl (ln 2)) as [->|N]; [lra|left; apply exp_increasing; lra]. }
  set (e := exp (- tl)) in *. assert (0 <= (0.1 - 0.2 * e) / (0.1 + 0.882 / F) <= 1).
  { split; [apply Rmult_le_pos; [lra|left; apply Rinv_0_lt_compat; lra]|]. apply Rmult_le_reg_r with (0.1 + 0.882 / F); [lra|]. unfold Rdiv at 1. rewrite Rmult_assoc, Rinv_l by lra. lra. }
  lra.
Qed.
Lemma share_decreasing tl tl' h : tl <= tl' -> ip_beam_share tl' h <= ip_beam_share tl h.
Proof.
  intros H. unfold ip_beam_share. set (F := exp (- h / 8000)). assert (P : 0 < 0.882 / F) by (apply Rdiv_lt_0_compat; [lra|apply exp_pos]).
  assert (E : exp (- tl') <= exp (- tl)) by (destruct (Req_dec tl tl') as [->|N]; [lra|left; apply exp_increasing; lra]).
  assert ((0.1 - 0.2 * exp (- tl)) / (0.1 + 0.882 / F) <= (0.1 - 0.2 * exp (- tl')) / (0.1 + 0.882 / F)) by (apply Rmult_le_compat_r; [left; apply Rinv_0_lt_compat; lra|lra]). lra.
Qed.
Lemma exp_le a b : a <= b -> exp a <= exp b.
Proof. intros H. destruct (Req_dec a b) as [->|N]; [lra|left; apply exp_increasing; lra]. Qed.
Lemma ip_ghi_nonneg e c m tl h i0 : 0 <= c -> 0 <= i0 -> -17000 <= h -> 0 <= ip_ghi e c m tl h i0.
Proof. intros. unfold ip_ghi. repeat apply Rmult_le_pos; try lra; [left; apply exp_pos|destruct e; [left; apply exp_pos|lra]]. Qed.
Lemma ip_ghi_decreasing e c m tl tl' h i0 : 0 <= c -> 0 <= i0 -> -900 <= h -> 0 <= m -> tl <= tl' -> ip_ghi e c m tl' h i0 <= ip_ghi e c m tl h i0.
Proof.
  intros Hc Hi Hh Hm H. unfold ip_ghi. apply Rmult_le_compat_r; [destruct e; [left; apply exp_pos|lra]|]. apply Rmult_le_compat_l; [repeat apply Rmult_le_pos; lra|].
  apply exp_le. pose proof (exp_pos (- h / 1250)). set (F := exp (- h / 1250)) in *. set (G := exp (- h / 8000)).
  assert (0 <= (3.92e-05 * h + 0.0387) * m) by (apply Rmult_le_pos; lra). assert (0 <= F * (tl' - tl)) by (apply Rmult_le_pos; lra).
  assert (0 <= (3.92e-05 * h + 0.0387) * m * (F * (tl' - tl))) by (apply Rmult_le_pos; assumption). lra.
Qed.
Lemma ip_beam_nonneg m tl h i0 : 0 <= i0 -> 0 <= ip_beam m tl h i0.
Proof.
  intros. unfold ip_beam. assert (0 < 0.163 / exp (- h / 8000)) by (apply Rdiv_lt_0_compat; [lra|apply exp_pos]). repeat apply Rmult_le_pos; try lra. left; apply exp_pos.
Qed.
Lemma ip_beam_decreasing m tl tl' h i0 : 0 <= i0 -> 0 <= m -> tl <= tl' -> ip_beam m tl' h i0 <= ip_beam m tl h i0.
Proof.
  intros. unfold ip_beam. assert (0 < 0.163 / exp (- h / 8000)) by (apply Rdiv_lt_0_compat; [lra|apply exp_pos]). apply Rmult_le_compat_l; [apply Rmult_le_pos; lra|].
  apply exp_le. assert (0 <= m * (tl' - tl)) by (apply Rmult_le_pos; lra). lra.
Qed.
