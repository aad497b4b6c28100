(** The shadow of one row on a piece of the ground. *)
From Coquelicot Require Import Coquelicot.
From Verif Require Import Base.Fl Base.FlFacts Base.Py Base.Trig Model.Bifacial Spec.BifacialSpec Proofs.PvsystemP Proofs.Invert Proofs.BifRow.
From Coq Require Import Psatz ZArith Classical.
Open Scope R_scope.

Definition overlap (l h a b : R) : R := Rmax 0 (Rmin h b - Rmax l a).
(** the shadow of row [k] *)
Definition half_len (th ph w : R) : R := Rabs (w * cosD th + w * sinD th * tanD ph) / 2.
Definition lo_of (th ph w h p k : R) : R := k * p + h * tanD ph - half_len th ph w.
Definition hi_of (th ph w h p k : R) : R := k * p + h * tanD ph + half_len th ph w.

Lemma row_shade_fin th ph g h p a b k : cosD ph <> 0 -> a < b ->
  row_shade #th #ph #g #h #p #a #b #k = #(overlap (lo_of th ph (p * g) h p k) (hi_of th ph (p * g) h p k) a b / (b - a)).
Proof.
  intros Hc Hab. unfold row_shade. rewrite cosd_fin, sind_fin, tand_fin by exact Hc.
  repeat rewrite ?fmul_fin, ?fsub_fin, ?fadd_fin. rewrite !fgtb_fin.
  set (w := p * g). set (X := w * cosD th) in *. set (Y := w * sinD th) in *. set (T := tanD ph).
  replace (k * p + 0.5 * X + (h + 0.5 * Y) * T) with (k * p + h * T + (X + Y * T) / 2) by lra.
  replace (k * p - 0.5 * X + (h - 0.5 * Y) * T) with (k * p + h * T - (X + Y * T) / 2) by lra.
  unfold lo_of, hi_of, half_len. fold X Y T. replace (w * cosD th + w * sinD th * T) with (X + Y * T) by reflexivity.
  set (Z := X + Y * T). set (m := k * p + h * T).
  assert (E : where_ (Rltb (m + Z / 2) (m - Z / 2)) #(m - Z / 2) #(m + Z / 2) = #(m + Rabs Z / 2) /\
              where_ (Rltb (m + Z / 2) (m - Z / 2)) #(m + Z / 2) #(m - Z / 2) = #(m - Rabs Z / 2)).
  { unfold where_. destruct (Rltb_spec (m + Z / 2) (m - Z / 2)).
    - rewrite Rabs_left by lra. split; f_equal; lra.
    - rewrite Rabs_right by lra. split; f_equal; lra. }
  destruct E as [E1 E2]. rewrite E1, E2. pose proof (Rabs_pos Z) as PZ. set (q := Rabs Z / 2) in *. assert (0 <= q) by (unfold q; lra). clearbody q. clear E1 E2 PZ.
  rewrite !fsub_fin, !fleb_fin, !fgeb_fin, !fltb_fin, !fgtb_fin, !fdiv_fin by lra. unfold where_.
  set (L := m - q). set (H' := m + q). assert (LH : L <= H') by (unfold L, H'; lra). clearbody L H'. unfold overlap.
  destruct (Rltb_spec b L); destruct (Rltb_spec b H'); destruct (Rltb_spec a L); destruct (Rltb_spec L b); destruct (Rltb_spec a H'); destruct (Rltb_spec H' b);
  destruct (Rleb_spec L b); destruct (Rleb_spec b H'); destruct (Rltb_spec L a); destruct (Rltb_spec H' a); destruct (Rleb_spec L a); destruct (Rleb_spec a H'); cbn [andb];
  try lra; f_equal; unfold Rmax, Rmin; repeat destruct Rle_dec; try lra; field_simplify_eq; lra.
Qed.
