(** The bisection of Model/Reverse.v on a function finite on the interval. *)
From Coq Require Import Lia.
From Verif Require Import Base.Fl Base.FlFacts Base.Py Model.Irradiance Model.IrradDecomp Model.Reverse.
Open Scope R_scope.

Section Loop.
Variables (f : fl -> res fl) (F : R -> R) (a b xtol : R).
Hypothesis Hf : forall g, a <= g <= b -> f #g = Ok #(F g).
Hypothesis Hx : 0 < xtol.
Let r := 4 / 2 ^ 52.

Lemma call_fin g : a <= g <= b -> call f #g = Ok #(F g).
Proof. intros H. unfold call. rewrite Hf by exact H. reflexivity. Qed.
Lemma rtol_pos x : 0 <= 4 / 2 ^ 52 * Rabs x.
Proof. apply Rmult_le_pos; [|apply Rabs_pos]. apply Rmult_le_pos; [lra|]. left. apply Rinv_0_lt_compat. apply pow_lt; lra. Qed.

Lemma half_pow w n : w / 2 / 2 ^ n = w / 2 ^ S n.
Proof. cbn [pow]. field. apply pow_nonzero; lra. Qed.

Lemma loop_spec left : forall it xa w s fa, 0 < w -> a <= xa -> xa + w <= b -> signbit fa = s ->
  F xa <> 0 -> F (xa + w) <> 0 -> Rltb (F xa) 0 = s -> Rltb (F (xa + w)) 0 = negb s ->
  exists x (c : bool) (n k : nat),
    bisect_loop f #xtol fa #xa #w it left = Ok (Root #x c (it + Z.of_nat n)) /\ (n <= left)%nat /\
    (k <= 2 ^ n)%nat /\ x = xa + w * INR k / 2 ^ n /\ xa <= x <= xa + w /\
    (c = true -> (1 <= n)%nat /\ (F x = 0 \/ (w / 2 ^ n < xtol + r * Rabs x /\ xa <= x - w / 2 ^ n /\ x + w / 2 ^ n <= xa + w /\ F (x - w / 2 ^ n) * F (x + w / 2 ^ n) < 0))) /\
    (c = false -> n = left /\ x + w / 2 ^ n <= xa + w /\ F x * F (x + w / 2 ^ n) < 0 /\ ((1 <= left)%nat -> xtol <= w / 2 ^ left)).
Proof.
  induction left as [|left IH]; intros it xa w s fa Hw Ha Hb Hs N0 N1 S0 S1.
  - exists xa, false, 0%nat, 0%nat. cbn [bisect_loop pow INR Nat.pow].
    assert (E : it = (it + Z.of_nat 0)%Z) by (cbn; lia). split; [rewrite <- E; reflexivity|].
    split; [lia|]. split; [lia|]. split; [cbn; lra|]. split; [lra|]. split; [discriminate|]. intros _.
    split; [reflexivity|]. split; [lra|]. split; [|lia].
    replace (w / 1) with w by lra.
    destruct s; cbn in S1; [apply Rltb_true in S0; apply Rltb_false in S1 | apply Rltb_false in S0; apply Rltb_true in S1].
    + assert (P : 0 < (- F xa) * F (xa + w)) by (apply Rmult_lt_0_compat; lra). lra.
    + assert (P : 0 < F xa * (- F (xa + w))) by (apply Rmult_lt_0_compat; lra). lra.
  - cbn [bisect_loop]. rewrite fmul_fin, fadd_fin. set (xm := xa + w * 0.5). set (dm := w * 0.5).
    assert (Dm : dm = w / 2) by (unfold dm; lra). assert (Xm : xm = xa + w / 2) by (unfold xm; lra).
    rewrite call_fin by (rewrite Xm; lra). cbn [bind].
    unfold bisect_rtol. rewrite fabs_fin, fabs_fin, fmul_fin, fadd_fin, feqb_fin, fltb_fin.
    fold r. 
    assert (SM : signbit #(F xm) = Rltb (F xm) 0) by reflexivity. rewrite SM, Hs.
    destruct (Reqb (F xm) 0 || Rltb (Rabs dm) (xtol + r * Rabs xm)) eqn:T.
    + exists xm, true, 1%nat, 1%nat. split; [reflexivity|]. split; [lia|]. split; [cbn; lia|]. 
      split; [cbn [INR pow]; rewrite Xm; field|]. split; [rewrite Xm; lra|]. split; [|discriminate]. intros _. split; [lia|].
      apply orb_true_iff in T. destruct T as [T|T]; [left; apply Reqb_true in T; exact T|]. apply Rltb_true in T.
      right. rewrite Dm, (Rabs_pos_eq (w / 2)) in T by lra. replace (w / 2 ^ 1) with (w / 2) by (cbn [pow]; field).
      split; [exact T|]. rewrite Xm. split; [lra|]. split; [lra|].
      replace (xa + w / 2 - w / 2) with xa by lra. replace (xa + w / 2 + w / 2) with (xa + w) by lra.
      destruct s; cbn in S1; [apply Rltb_true in S0; apply Rltb_false in S1 | apply Rltb_false in S0; apply Rltb_true in S1].
      * assert (P : 0 < (- F xa) * F (xa + w)) by (apply Rmult_lt_0_compat; lra). lra.
      * assert (P : 0 < F xa * (- F (xa + w))) by (apply Rmult_lt_0_compat; lra). lra.
    + apply orb_false_iff in T. destruct T as [T1 T2]. apply Reqb_false in T1. apply Rltb_false in T2.
      rewrite Dm, (Rabs_pos_eq (w / 2)) in T2 by lra. pose proof (rtol_pos xm) as RP. fold r in RP.
      destruct (Bool.eqb (Rltb (F xm) 0) s) eqn:E.
      * apply Bool.eqb_prop in E.
        destruct (IH (it + 1)%Z xm dm s fa) as (x & c & n & k & H1 & H2 & H3 & H4 & H5 & H6 & H7); 
          [rewrite Dm; lra | rewrite Xm; lra | rewrite Xm, Dm; lra | exact Hs | exact T1 | | exact E | |].
        { replace (xm + dm) with (xa + w) by (rewrite Xm, Dm; lra). exact N1. }
        { replace (xm + dm) with (xa + w) by (rewrite Xm, Dm; lra). exact S1. }
        rewrite Dm, Xm in *. rewrite half_pow in *.
        exists x, c, (Datatypes.S n), (k + 2 ^ n)%nat. split; [rewrite H1; do 2 f_equal; lia|]. split; [lia|]. split; [cbn; lia|].
        split; [rewrite H4, plus_INR, pow_INR; cbn [INR pow]; replace (1 + 1) with 2 by lra; field; apply pow_nonzero; lra|].
        split; [lra|]. split; [intros C; destruct (H6 C) as (C1 & [C2 | (C2 & C3 & C4 & C5)]); split; try lia; [left; exact C2 | right; repeat split; try assumption; lra]|].
        intros C. destruct (H7 C) as (C1 & C2 & C3 & C4). split; [lia|]. split; [lra|]. split; [exact C3|].
        intros _. destruct left as [|left']; [cbn; lra|]. rewrite <- half_pow. apply C4. lia.
      * assert (E' : Rltb (F xm) 0 = negb s) by (destruct (Rltb (F xm) 0), s; cbn in E |- *; congruence).
        destruct (IH (it + 1)%Z xa dm s fa) as (x & c & n & k & H1 & H2 & H3 & H4 & H5 & H6 & H7); 
          [rewrite Dm; lra | lra | rewrite Dm; lra | exact Hs | exact N0 | | exact S0 | |].
        { replace (xa + dm) with xm by (rewrite Xm, Dm; lra). exact T1. }
        { replace (xa + dm) with xm by (rewrite Xm, Dm; lra). exact E'. }
        rewrite Dm, Xm in *. rewrite half_pow in *.
        exists x, c, (Datatypes.S n), k. split; [rewrite H1; do 2 f_equal; lia|]. split; [lia|]. split; [cbn; lia|].
        split; [rewrite H4; cbn [pow]; field; apply pow_nonzero; lra|].
        split; [lra|]. split; [intros C; destruct (H6 C) as (C1 & [C2 | (C2 & C3 & C4 & C5)]); split; try lia; [left; exact C2 | right; repeat split; try assumption; lra]|].
        intros C. destruct (H7 C) as (C1 & C2 & C3 & C4). split; [lia|]. split; [lra|]. split; [exact C3|].
        intros _. destruct left as [|left']; [cbn; lra|]. rewrite <- half_pow. apply C4. lia.
Qed.

(** what the search returns on an interval with finite values *)
Definition found (maxiter : nat) (x : R) (c : bool) (n : Z) : Prop :=
  a <= x <= b /\ (0 <= n <= Z.of_nat maxiter)%Z /\
  (exists k : nat, x = a + (b - a) * INR k / 2 ^ Z.to_nat n) /\
  (c = true -> F x = 0 \/
     (let d := (b - a) / 2 ^ Z.to_nat n in d < xtol + r * Rabs x /\ a <= x - d /\ x + d <= b /\ F (x - d) * F (x + d) < 0)) /\
  (c = false -> n = Z.of_nat maxiter /\ (let d := (b - a) / 2 ^ maxiter in xtol <= d /\ x + d <= b /\ F x * F (x + d) < 0)).

Lemma bisect_spec maxiter : a < b -> (1 <= maxiter)%nat ->
  (0 < F a * F b -> bisect f #a #b #xtol maxiter = Err ValueError) /\
  (F a * F b <= 0 -> exists x c n, bisect f #a #b #xtol maxiter = Ok (Root #x c n) /\ found maxiter x c n).
Proof.
  intros Hab Hm. unfold bisect. rewrite fleb_fin, Rleb_f by exact Hx. 
  rewrite (call_fin a), (call_fin b) by lra. cbn [bind]. rewrite !feqb_fin.
  assert (SM : forall y, signbit #y = Rltb y 0) by reflexivity. rewrite !SM. rewrite fsub_fin.
  split.
  - intros P. rewrite !Reqb_f by (intros E; rewrite E in P; lra).
    assert (E : Rltb (F a) 0 = Rltb (F b) 0).
    { destruct (Rltb_spec (F a) 0), (Rltb_spec (F b) 0); try reflexivity; exfalso.
      - assert (Q : 0 <= (- F a) * F b) by (apply Rmult_le_pos; lra). lra.
      - assert (Q : 0 <= F a * (- F b)) by (apply Rmult_le_pos; lra). lra. }
    rewrite E, Bool.eqb_reflx. reflexivity.
  - intros P. destruct (Reqb_spec (F a) 0) as [Za|Za].
    { exists a, true, 0%Z. split; [reflexivity|]. unfold found. split; [lra|]. split; [lia|]. split; [exists 0%nat; cbn; lra|].
      split; [left; exact Za | discriminate]. }
    destruct (Reqb_spec (F b) 0) as [Zb|Zb].
    { exists b, true, 0%Z. split; [reflexivity|]. unfold found. split; [lra|]. split; [lia|]. split; [exists 1%nat; cbn; lra|].
      split; [left; exact Zb | discriminate]. }
    assert (E : Rltb (F b) 0 = negb (Rltb (F a) 0)).
    { destruct (Rltb_spec (F a) 0), (Rltb_spec (F b) 0); try reflexivity; exfalso.
      - assert (Q : 0 < (- F a) * (- F b)) by (apply Rmult_lt_0_compat; lra). lra.
      - assert (Q : 0 < F a * F b) by (apply Rmult_lt_0_compat; lra). lra. }
    rewrite E. replace (Bool.eqb (Rltb (F a) 0) (negb (Rltb (F a) 0))) with false by (destruct (Rltb (F a) 0); reflexivity).
    destruct (loop_spec maxiter 0 a (b - a) (Rltb (F a) 0) #(F a)) as (x & c & n & k & H1 & H2 & H3 & H4 & H5 & H6 & H7);
      [lra | lra | lra | apply SM | exact Za | | reflexivity | |].
    { replace (a + (b - a)) with b by lra. exact Zb. }
    { replace (a + (b - a)) with b by lra. exact E. }
    exists x, c, (0 + Z.of_nat n)%Z. split; [exact H1|]. unfold found. rewrite Z.add_0_l, Nat2Z.id.
    split; [lra|]. split; [lia|]. split; [exists k; exact H4|]. split.
    + intros C. destruct (H6 C) as (_ & [C2 | (C2 & C3 & C4 & C5)]); [left; exact C2|]. right. cbv zeta. repeat split; try assumption; lra.
    + intros C. destruct (H7 C) as (C1 & C2 & C3 & C4). subst n. split; [reflexivity|]. cbv zeta. split; [apply C4; exact Hm|]. split; [lra|exact C3].
Qed.
End Loop.
