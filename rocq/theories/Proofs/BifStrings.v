(** Crossed strings. *)
From Coquelicot Require Import Coquelicot.
From Verif Require Import Base.Fl Base.FlFacts Base.Py Base.Trig Model.Bifacial Spec.BifacialSpec Proofs.PvsystemP Proofs.Invert Proofs.BifRow Proofs.BifShade Proofs.BifGround Proofs.BifSky.
From Coq Require Import Psatz ZArith Classical.
Open Scope R_scope.

Definition rdist (p q : R * R) : R := sqrt ((fst p - fst q) * (fst p - fst q) + (snd p - snd q) * (snd p - snd q)).
Definition rang (p q : R * R) : R := Ratan2 (snd q - snd p) (fst q - fst p).
Definition fpt (p : R * R) : fl * fl := (#(fst p), #(snd p)).
Lemma sqs_pos x y : 0 <= x * x + y * y. Proof. pose proof (Rle_0_sqr x). pose proof (Rle_0_sqr y). unfold Rsqr in *. lra. Qed.
Lemma dist_fin p q : dist (fpt p) (fpt q) = #(rdist p q).
Proof.
  unfold dist, fpt. cbn [fst snd]. rewrite !fsub_fin, !fpown_fin, fadd_fin. replace ((fst p - fst q) ^ 2 + (snd p - snd q) ^ 2) with ((fst p - fst q) * (fst p - fst q) + (snd p - snd q) * (snd p - snd q)) by ring.
  rewrite fsqrt_fin by apply sqs_pos. reflexivity.
Qed.
Lemma angle_fin p q : angle (fpt p) (fpt q) = #(rang p q).
Proof. unfold angle, fpt, rang. cbn [fst snd]. rewrite !fsub_fin, fatan2_fin. reflexivity. Qed.
Definition rstring (p q ol or : R * R) : R :=
  if Rlt_dec 1e-8 (rang p or - rang p q) then rdist p or + rdist or q
  else if Rlt_dec 1e-8 (rang p q - rang p ol) then rdist p ol + rdist ol q else rdist p q.
Lemma string_fin p q ol or : string_length (fpt p) (fpt q) (fpt ol) (fpt or) = #(rstring p q ol or).
Proof.
  unfold string_length, rstring, where_. rewrite !angle_fin, !dist_fin, !fsub_fin, !fgtb_fin, !fadd_fin. unfold Rltb. repeat destruct Rlt_dec; reflexivity.
Qed.
Lemma rdist_pos p q : 0 <= rdist p q. Proof. apply sqrt_pos. Qed.
Lemma rdist_triangle p q o : rdist p q <= rdist p o + rdist o q.
Proof.
  unfold rdist. set (x := fst p - fst o). set (y := snd p - snd o). set (u := fst o - fst q). set (v := snd o - snd q).
  replace (fst p - fst q) with (x + u) by (unfold x, u; ring). replace (snd p - snd q) with (y + v) by (unfold y, v; ring).
  pose proof (sqs_pos x y) as A. pose proof (sqs_pos u v) as B. pose proof (sqs_pos (x + u) (y + v)) as C.
  apply Rsqr_incr_0; [|apply sqrt_pos|pose proof (sqrt_pos (x * x + y * y)); pose proof (sqrt_pos (u * u + v * v)); lra].
  rewrite Rsqr_sqrt by exact C. unfold Rsqr. 
  pose proof (sqrt_sqrt _ A) as QA. pose proof (sqrt_sqrt _ B) as QB. set (a := sqrt (x * x + y * y)) in *. set (b := sqrt (u * u + v * v)) in *.
  assert (Pa : 0 <= a) by apply sqrt_pos. assert (Pb : 0 <= b) by apply sqrt_pos.
  assert (K : x * u + y * v <= a * b).
  { destruct (Rle_dec (x * u + y * v) 0) as [N|N]; [pose proof (Rmult_le_pos a b Pa Pb); lra|]. apply Rsqr_incr_0; [|lra|apply Rmult_le_pos; assumption]. unfold Rsqr.
    replace (a * b * (a * b)) with (a * a * (b * b)) by ring. rewrite QA, QB. pose proof (Rle_0_sqr (x * v - y * u)) as S. unfold Rsqr in S. lra. }
  lra.
Qed.
Lemma rstring_ge p q ol or : rdist p q <= rstring p q ol or.
Proof. unfold rstring. repeat destruct Rlt_dec; try apply rdist_triangle. lra. Qed.

(** from a ground point [s], the length of a straight string to [q] falls by the cosine of its direction *)
Lemma string_int q a b : 0 < snd q -> a <= b -> is_RInt (fun s => cos (rang (s, 0) q)) a b (rdist (a, 0) q - rdist (b, 0) q).
Proof.
  intros Hq Hab. unfold rang, rdist. cbn [fst snd].
  assert (P : forall s, 0 < (s - fst q) * (s - fst q) + (0 - snd q) * (0 - snd q)).
  { intros s. pose proof (Rle_0_sqr (s - fst q)) as A. unfold Rsqr in A. assert (0 < snd q * snd q) by (apply Rmult_lt_0_compat; lra). lra. }
  apply (is_RInt_ext (fun s => - ((s - fst q) / sqrt ((s - fst q) * (s - fst q) + (0 - snd q) * (0 - snd q))))).
  { intros s _. destruct (atan2_polar (snd q - 0) (fst q - s)) as [A _]. 
    replace ((fst q - s) * (fst q - s) + (snd q - 0) * (snd q - 0)) with ((s - fst q) * (s - fst q) + (0 - snd q) * (0 - snd q)) in A by ring.
    pose proof (sqrt_lt_R0 _ (P s)) as R. set (r := sqrt ((s - fst q) * (s - fst q) + (0 - snd q) * (0 - snd q))) in *.
    assert (E : cos (Ratan2 (snd q - 0) (fst q - s)) = (fst q - s) / r) by (apply Rmult_eq_reg_l with r; [rewrite A; field; lra|lra]).
    assert (E2 : - ((s - fst q) / r) = (fst q - s) / r) by (unfold Rdiv; ring). etransitivity; [exact E2|symmetry; exact E]. }
  set (G := fun s => - sqrt ((s - fst q) * (s - fst q) + (0 - snd q) * (0 - snd q))).
  match goal with |- is_RInt _ _ _ ?v => replace v with (minus (G b) (G a)) by (unfold minus, plus, opp, G; cbn; ring) end.
  apply (is_RInt_derive G).
  - intros s _. unfold G. pose proof (P s) as Ps. pose proof (sqrt_lt_R0 _ Ps) as R. 
    auto_derive; [|]. 
    + replace ((s + - fst q) * (s + - fst q) + (0 - snd q) * (0 - snd q)) with ((s - fst q) * (s - fst q) + (0 - snd q) * (0 - snd q)) by ring. exact Ps.
    + replace ((s + - fst q) * (s + - fst q) + (0 - snd q) * (0 - snd q)) with ((s - fst q) * (s - fst q) + (0 - snd q) * (0 - snd q)) by ring.
      set (r := sqrt ((s - fst q) * (s - fst q) + (0 - snd q) * (0 - snd q))) in *. field. lra.
  - intros s _. apply (ex_derive_continuous (V := R_NormedModule)). pose proof (P s) as Ps. pose proof (sqrt_lt_R0 _ Ps) as R. auto_derive.
    replace ((s + - fst q) * (s + - fst q) + (0 - snd q) * (0 - snd q)) with ((s - fst q) * (s - fst q) + (0 - snd q) * (0 - snd q)) by ring. repeat split; lra.
Qed.

(** ** The opening between row k and row k+1.  [tx], [ty]: the top edge relative to the middle of the row *)
Section Opening.
  Context (h p tx ty m : R) (Hp : 0 < p) (Hty : 0 < ty) (Hh : ty < h).
  (** middle of row k at x = m, of row k+1 at m + p *)
  Let d : R * R := (m + tx, h + ty).
  Let c : R * R := (m + p + tx, h + ty).
  Let bk : R * R := (m - tx, h - ty).
  Let bk1 : R * R := (m + p - tx, h - ty).
  (** points of the ground in line with two edges *)
  Let s0 : R := m - h * tx / ty.
  Let s0' : R := s0 + p.
  Let off : R := p * (h - ty) / (2 * ty).
  Let s1 : R := s0 - off.
  Let s2 : R := s0' + off.
  Lemma off_pos : 0 < off. Proof. unfold off. apply Rdiv_lt_0_compat; [apply Rmult_lt_0_compat; lra|lra]. Qed.
  Definition ang (s : R) (q : R * R) : R := rang (s, 0) q.
  Definition len (s : R) (q : R * R) : R := rdist (s, 0) q.
  Definition cross (s : R) (q r : R * R) : R := (fst q - s) * snd r - (fst r - s) * snd q.
  (** the order of directions is the sign of the cross product *)
  Lemma ang_le s q r : 0 < snd q -> 0 < snd r -> (ang s q <= ang s r <-> 0 <= cross s q r).
  Proof.
    intros Hq Hr. unfold ang, rang, cross. cbn [fst snd]. rewrite !Rminus_0_r. pose proof (atan2_up (snd q) (fst q - s) Hq) as Rq.
    rewrite dir_le by assumption. destruct (atan2_polar (snd q) (fst q - s)) as [A B]. pose proof (hyp_pos (fst q - s) (snd q) ltac:(right; lra)) as P.
    set (l := sqrt ((fst q - s) * (fst q - s) + snd q * snd q)) in *. set (a := Ratan2 (snd q) (fst q - s)) in *.
    assert (E : (fst q - s) * snd r - (fst r - s) * snd q = l * (snd r * cos a - (fst r - s) * sin a)) by (rewrite <- A at 1; rewrite <- B at 1; ring).
    rewrite E. split; intros H; [apply Rmult_le_pos; lra|]. apply Rmult_le_reg_l with l; lra.
  Qed.
  Lemma ang_lt s q r : 0 < snd q -> 0 < snd r -> (ang s q < ang s r <-> 0 < cross s q r).
  Proof.
    intros Hq Hr. pose proof (ang_le s r q Hr Hq) as A. unfold cross in *. split; intros H; [apply Rnot_le_lt|apply Rnot_le_lt]; intros K.
    - assert (ang s r <= ang s q) by (apply A; lra). lra.
    - apply A in K. lra.
  Qed.
  Lemma cross_d_c s : 0 < cross s c d. Proof. unfold cross, c, d. cbn [fst snd]. assert (0 < p * (h + ty)) by (apply Rmult_lt_0_compat; lra). lra. Qed.
  Lemma cross_val_d_bk s : cross s d bk = 2 * ty * (s - s0). Proof. unfold cross, d, bk, s0. cbn [fst snd]. field. lra. Qed.
  Lemma cross_val_c_bk1 s : cross s c bk1 = 2 * ty * (s - s0'). Proof. unfold cross, c, bk1, s0', s0. cbn [fst snd]. field. lra. Qed.
  Lemma cross_val_c_bk s : cross s c bk = 2 * ty * (s - s1). Proof. unfold cross, c, bk, s1, off, s0. cbn [fst snd]. field. lra. Qed.
  Lemma cross_val_bk1_d s : cross s bk1 d = 2 * ty * (s2 - s). Proof. unfold cross, d, bk1, s2, off, s0', s0. cbn [fst snd]. field. lra. Qed.
  Let up_d : 0 < snd d. Proof. unfold d. cbn. lra. Qed.
  Let up_c : 0 < snd c. Proof. unfold c. cbn. lra. Qed.
  Let up_bk : 0 < snd bk. Proof. unfold bk. cbn. lra. Qed.
  Let up_bk1 : 0 < snd bk1. Proof. unfold bk1. cbn. lra. Qed.
  Lemma sgn_le s x : 0 <= 2 * ty * (s - x) <-> x <= s. Proof. split; intros H; [apply Rnot_lt_le; intros K; assert (0 < 2 * ty * (x - s)) by (apply Rmult_lt_0_compat; lra); lra|apply Rmult_le_pos; lra]. Qed.
  Lemma d_le_bk s : ang s d <= ang s bk <-> s0 <= s. Proof. rewrite ang_le, cross_val_d_bk by assumption. apply sgn_le. Qed.
  Lemma c_le_bk1 s : ang s c <= ang s bk1 <-> s0' <= s. Proof. rewrite ang_le, cross_val_c_bk1 by assumption. apply sgn_le. Qed.
  Lemma c_le_bk s : ang s c <= ang s bk <-> s1 <= s. Proof. rewrite ang_le, cross_val_c_bk by assumption. apply sgn_le. Qed.
  Lemma bk1_le_d s : ang s bk1 <= ang s d <-> s <= s2. Proof. rewrite ang_le, cross_val_bk1_d by assumption. apply sgn_le. Qed.
  Lemma bk_le_d s : ang s bk <= ang s d <-> s <= s0.
  Proof. rewrite ang_le by assumption. assert (E : cross s bk d = 2 * ty * (s0 - s)) by (pose proof (cross_val_d_bk s) as Q; unfold cross in *; lra). rewrite E. apply sgn_le. Qed.
  Lemma bk1_le_c s : ang s bk1 <= ang s c <-> s <= s0'.
  Proof. rewrite ang_le by assumption. assert (E : cross s bk1 c = 2 * ty * (s0' - s)) by (pose proof (cross_val_c_bk1 s) as Q; unfold cross in *; lra). rewrite E. apply sgn_le. Qed.
  Lemma c_lt_d s : ang s c < ang s d. Proof. apply ang_lt; [assumption|assumption|apply cross_d_c]. Qed.
  Lemma bk1_lt_bk s : ang s bk1 < ang s bk.
  Proof. apply ang_lt; [assumption|assumption|]. unfold cross, bk, bk1. cbn [fst snd]. assert (0 < p * (h - ty)) by (apply Rmult_lt_0_compat; lra). lra. Qed.

  (** length of the string to c minus the string to d from s, when a string bends only where it is blocked *)
  Definition strings (s : R) : R :=
    if Rle_dec s s1 then rdist bk c - rdist bk d
    else if Rle_dec s s0 then len s c - len s bk - rdist bk d
    else if Rle_dec s s0' then len s c - len s d
    else if Rle_dec s s2 then len s bk1 + rdist bk1 c - len s d
    else rdist bk1 c - rdist bk1 d.
  (** what is seen of the opening *)
  Definition seen (s : R) : R := Rmax (cos (Rmax (ang s c) (ang s bk1)) - cos (Rmin (ang s d) (ang s bk))) 0.

  (** three points in line *)
  Lemma in_line s q r : 0 < snd q -> snd q <= snd r -> cross s q r = 0 -> len s r = len s q + rdist q r.
  Proof.
    intros Hq Hr Hc. unfold cross in Hc. unfold len, rdist. cbn [fst snd]. set (k := snd r / snd q).
    assert (K : 1 <= k) by (unfold k; apply Rmult_le_reg_r with (snd q); [lra|]; unfold Rdiv; rewrite Rmult_assoc, Rinv_l by lra; lra).
    assert (E2 : snd r = k * snd q) by (unfold k; field; lra). assert (E1 : fst r - s = k * (fst q - s)) by (unfold k; apply Rmult_eq_reg_r with (snd q); [|lra]; unfold Rdiv; replace (snd r * / snd q * (fst q - s) * snd q) with (snd r * (fst q - s)) by (field; lra); lra).
    set (x := fst q - s) in *. set (y := snd q) in *.
    replace ((s - fst r) * (s - fst r) + (0 - snd r) * (0 - snd r)) with ((k * k) * (x * x + y * y)) by (rewrite E2; replace (s - fst r) with (- (k * x)) by lra; ring).
    replace ((s - fst q) * (s - fst q) + (0 - y) * (0 - y)) with (x * x + y * y) by (unfold x; ring).
    replace ((fst q - fst r) * (fst q - fst r) + (y - snd r) * (y - snd r)) with (((k - 1) * (k - 1)) * (x * x + y * y)) by (rewrite E2; replace (fst q - fst r) with (- ((k - 1) * x)) by (unfold x in *; lra); ring).
    rewrite (sqrt_mult_alt (k * k)) by nra. rewrite (sqrt_mult_alt ((k - 1) * (k - 1))) by nra. rewrite (sqrt_square k), (sqrt_square (k - 1)) by lra. ring.
  Qed.
  Let fine (a b : R) : Prop := is_RInt seen a b (strings a - strings b).
  Lemma fine_trans a b x : fine a x -> fine x b -> fine a b.
  Proof.
    unfold fine. intros A B. replace (strings a - strings b) with (plus (strings a - strings x) (strings x - strings b)) by (unfold plus; cbn; ring).
    apply (is_RInt_Chasles (V := R_NormedModule) _ a x b); assumption.
  Qed.
  Lemma fine_refl a : fine a a.
  Proof. unfold fine. rewrite Rminus_eq_0. apply (is_RInt_point (V := R_NormedModule)). Qed.
  Lemma diff_int q r a b : 0 < snd q -> 0 < snd r -> a <= b -> is_RInt (fun s => cos (ang s q) - cos (ang s r)) a b ((len a q - len a r) - (len b q - len b r)).
  Proof.
    intros Hq Hr Hab. replace ((len a q - len a r) - (len b q - len b r)) with (minus (len a q - len b q) (len a r - len b r)) by (unfold minus, plus, opp; cbn; ring).
    apply (is_RInt_minus (V := R_NormedModule)); apply string_int; assumption.
  Qed.
  Lemma ang_range s q : 0 < snd q -> 0 < ang s q < PI. Proof. intros H. unfold ang, rang. cbn [fst snd]. rewrite Rminus_0_r. apply atan2_up, H. Qed.
  Lemma seen_pos s q r : Rmax (ang s c) (ang s bk1) = ang s q -> Rmin (ang s d) (ang s bk) = ang s r -> 0 < snd q -> 0 < snd r -> ang s q <= ang s r -> seen s = cos (ang s q) - cos (ang s r).
  Proof.
    intros Eq Er Hq Hr H. unfold seen. rewrite Eq, Er. apply Rmax_left. pose proof (ang_range s q Hq). pose proof (ang_range s r Hr).
    destruct (Req_dec (ang s q) (ang s r)) as [->|N]; [lra|]. pose proof (cos_decreasing_1 (ang s q) (ang s r)). lra.
  Qed.
  Lemma seen_zero s q r : Rmax (ang s c) (ang s bk1) = ang s q -> Rmin (ang s d) (ang s bk) = ang s r -> 0 < snd q -> 0 < snd r -> ang s r <= ang s q -> seen s = 0.
  Proof.
    intros Eq Er Hq Hr H. unfold seen. rewrite Eq, Er. apply Rmax_right. pose proof (ang_range s q Hq). pose proof (ang_range s r Hr).
    destruct (Req_dec (ang s q) (ang s r)) as [->|N]; [lra|]. pose proof (cos_decreasing_1 (ang s r) (ang s q)). lra.
  Qed.
  (** the extreme edges *)
  Lemma top_left s : s <= s0' -> Rmax (ang s c) (ang s bk1) = ang s c. Proof. intros H. apply Rmax_left, bk1_le_c, H. Qed.
  Lemma top_right s : s0' <= s -> Rmax (ang s c) (ang s bk1) = ang s bk1. Proof. intros H. apply Rmax_right, c_le_bk1, H. Qed.
  Lemma bot_left s : s <= s0 -> Rmin (ang s d) (ang s bk) = ang s bk. Proof. intros H. apply Rmin_right, bk_le_d, H. Qed.
  Lemma bot_right s : s0 <= s -> Rmin (ang s d) (ang s bk) = ang s d. Proof. intros H. apply Rmin_left, d_le_bk, H. Qed.
  Let order : s1 < s0 /\ s0 < s0' /\ s0' < s2. Proof. pose proof off_pos. unfold s1, s2, s0'. lra. Qed.
  (** the formula of the neighbouring region is valid at the border *)
  Lemma strings_I s : s <= s1 -> strings s = rdist bk c - rdist bk d.
  Proof. intros H. unfold strings. destruct (Rle_dec s s1); [reflexivity|lra]. Qed.
  Lemma strings_II s : s1 <= s <= s0 -> strings s = len s c - len s bk - rdist bk d.
  Proof.
    intros H. unfold strings. destruct (Rle_dec s s1); [|destruct (Rle_dec s s0); [reflexivity|lra]]. assert (s = s1) by lra. 
    rewrite (in_line s bk c); [ring|assumption|unfold bk, c; cbn; lra|]. pose proof (cross_val_c_bk s) as K. unfold cross in *. subst s. lra.
  Qed.
  Lemma strings_III s : s0 <= s <= s0' -> strings s = len s c - len s d.
  Proof.
    intros H. unfold strings. destruct (Rle_dec s s1); [lra|]. destruct (Rle_dec s s0); [|destruct (Rle_dec s s0'); [reflexivity|lra]]. assert (s = s0) by lra.
    rewrite (in_line s bk d); [ring|assumption|unfold bk, d; cbn; lra|]. pose proof (cross_val_d_bk s) as K. unfold cross in *. subst s. lra.
  Qed.
  Lemma strings_IV s : s0' <= s <= s2 -> strings s = len s bk1 + rdist bk1 c - len s d.
  Proof.
    intros H. unfold strings. destruct (Rle_dec s s1); [lra|]. destruct (Rle_dec s s0); [lra|]. destruct (Rle_dec s s0'); [|destruct (Rle_dec s s2); [reflexivity|lra]]. assert (s = s0') by lra.
    rewrite (in_line s bk1 c); [ring|assumption|unfold bk1, c; cbn; lra|]. pose proof (cross_val_c_bk1 s) as K. unfold cross in *. subst s. lra.
  Qed.
  Lemma strings_V s : s2 <= s -> strings s = rdist bk1 c - rdist bk1 d.
  Proof.
    intros H. unfold strings. destruct (Rle_dec s s1); [lra|]. destruct (Rle_dec s s0); [lra|]. destruct (Rle_dec s s0'); [lra|]. destruct (Rle_dec s s2); [|reflexivity]. assert (s = s2) by lra.
    rewrite (in_line s bk1 d); [ring|assumption|unfold bk1, d; cbn; lra|]. pose proof (cross_val_bk1_d s) as K. unfold cross in *. subst s. lra.
  Qed.
  Lemma fine_I a b : a <= b -> b <= s1 -> fine a b.
  Proof.
    intros Hab Hb. unfold fine. rewrite !strings_I by lra. apply (is_RInt_ext (fun _ => 0)).
    - rewrite Rmin_left, Rmax_right by lra. intros s Hs. symmetry. apply (seen_zero s c bk); auto; [apply top_left; lra|apply bot_left; lra|]. apply Rnot_lt_le. intros K. apply Rlt_le in K. apply c_le_bk in K. lra.
    - rewrite Rminus_eq_0. pose proof (const_int a b 0) as Z. rewrite Rmult_0_l in Z. exact Z.
  Qed.
  Lemma fine_II a b : s1 <= a -> a <= b -> b <= s0 -> fine a b.
  Proof.
    intros Ha Hab Hb. unfold fine. rewrite !strings_II by lra. apply (is_RInt_ext (fun s => cos (ang s c) - cos (ang s bk))).
    - rewrite Rmin_left, Rmax_right by lra. intros s Hs. symmetry. apply seen_pos; auto; [apply top_left; lra|apply bot_left; lra|]. apply c_le_bk. lra.
    - pose proof (diff_int c bk a b up_c up_bk Hab) as D. match goal with |- is_RInt _ _ _ ?v => match type of D with is_RInt _ _ _ ?w => replace v with w by ring end end. exact D.
  Qed.
  Lemma fine_III a b : s0 <= a -> a <= b -> b <= s0' -> fine a b.
  Proof.
    intros Ha Hab Hb. unfold fine. rewrite !strings_III by lra. apply (is_RInt_ext (fun s => cos (ang s c) - cos (ang s d))).
    - rewrite Rmin_left, Rmax_right by lra. intros s Hs. symmetry. apply seen_pos; auto; [apply top_left; lra|apply bot_right; lra|]. left. apply c_lt_d.
    - apply diff_int; assumption.
  Qed.
  Lemma fine_IV a b : s0' <= a -> a <= b -> b <= s2 -> fine a b.
  Proof.
    intros Ha Hab Hb. unfold fine. rewrite !strings_IV by lra. apply (is_RInt_ext (fun s => cos (ang s bk1) - cos (ang s d))).
    - rewrite Rmin_left, Rmax_right by lra. intros s Hs. symmetry. apply seen_pos; auto; [apply top_right; lra|apply bot_right; lra|]. apply bk1_le_d. lra.
    - pose proof (diff_int bk1 d a b up_bk1 up_d Hab) as D. match goal with |- is_RInt _ _ _ ?v => match type of D with is_RInt _ _ _ ?w => replace v with w by ring end end. exact D.
  Qed.
  Lemma fine_V a b : s2 <= a -> a <= b -> fine a b.
  Proof.
    intros Ha Hab. unfold fine. rewrite !strings_V by lra. apply (is_RInt_ext (fun _ => 0)).
    - rewrite Rmin_left, Rmax_right by lra. intros s Hs. symmetry. apply (seen_zero s bk1 d); auto; [apply top_right; lra|apply bot_right; lra|]. apply Rnot_lt_le. intros K. apply Rlt_le in K. apply bk1_le_d in K. lra.
    - rewrite Rminus_eq_0. pose proof (const_int a b 0) as Z. rewrite Rmult_0_l in Z. exact Z.
  Qed.
  Lemma split_at (P : R -> R -> Prop) x : (forall a b y, P a y -> P y b -> P a b) -> (forall a b, a <= b -> b <= x -> P a b) -> forall a b, a <= b -> (forall a, x <= a -> a <= b -> P a b) -> P a b.
  Proof.
    intros T L a b Hab H. destruct (Rle_dec b x); [apply L; lra|]. destruct (Rle_dec x a); [apply H; lra|]. apply (T a b x); [apply L; lra|apply H; lra].
  Qed.
  Lemma strings_int a b : a <= b -> is_RInt seen a b (strings a - strings b).
  Proof.
    pose proof order as O'. intros Hab. change (fine a b).
    apply (split_at fine s1); [apply fine_trans|intros; apply fine_I; lra|exact Hab|]. clear a Hab. intros a Ha Hab.
    destruct (Rle_dec b s0); [apply fine_II; lra|]. destruct (Rle_dec a s0) as [K|K]; [apply (fine_trans _ _ s0); [apply fine_II; lra|]|].
    - destruct (Rle_dec b s0'); [apply fine_III; lra|]. apply (fine_trans _ _ s0'); [apply fine_III; lra|]. destruct (Rle_dec b s2); [apply fine_IV; lra|]. apply (fine_trans _ _ s2); [apply fine_IV; lra|apply fine_V; lra].
    - destruct (Rle_dec a s0').
      + destruct (Rle_dec b s0'); [apply fine_III; lra|]. apply (fine_trans _ _ s0'); [apply fine_III; lra|]. destruct (Rle_dec b s2); [apply fine_IV; lra|]. apply (fine_trans _ _ s2); [apply fine_IV; lra|apply fine_V; lra].
      + destruct (Rle_dec a s2).
        * destruct (Rle_dec b s2); [apply fine_IV; lra|]. apply (fine_trans _ _ s2); [apply fine_IV; lra|apply fine_V; lra].
        * apply fine_V; lra.
  Qed.

  (** the strings of the code: the left obstruction is chosen from [a], the right one from [b] *)
  Definition clear_of (s : R) (q r : R * R) : Prop := ang s q - ang s r <= 0 \/ 1e-8 < ang s q - ang s r.
  Definition clear (s : R) : Prop := clear_of s c bk /\ clear_of s d bk /\ clear_of s bk1 c /\ clear_of s bk1 d.
  Definition is_left (a : R) (o : R * R) : Prop := (o = d /\ s0 <= a) \/ (o = bk /\ a <= s0).
  Definition is_right (b : R) (o : R * R) : Prop := (o = c /\ b <= s0') \/ (o = bk1 /\ s0' <= b).
  Lemma strings_code a b s ol or : a <= s <= b -> s = a \/ s = b -> is_left a ol -> is_right b or -> clear s ->
    rstring (s, 0) c ol or - rstring (s, 0) d ol or = strings s.
  Proof.
    pose proof order as O'. intros Hs E Hl Hr (K1 & K2 & K3 & K4).
    unfold clear_of, ang in K1, K2, K3, K4.
    pose proof (c_lt_d s) as CD. pose proof (bk1_lt_bk s) as BB.
    pose proof (d_le_bk s) as T1. pose proof (c_le_bk1 s) as T2. pose proof (c_le_bk s) as T3. pose proof (bk1_le_d s) as T4.
    unfold ang in CD, BB, T1, T2, T3, T4. unfold rstring.
    destruct Hl as [[-> Hl]|[-> Hl]]; destruct Hr as [[-> Hr]|[-> Hr]].
    - (* d, c *) destruct (Rlt_dec 1e-8 (rang (s, 0) c - rang (s, 0) c)); [lra|]. destruct (Rlt_dec 1e-8 (rang (s, 0) c - rang (s, 0) d)); [lra|]. destruct (Rlt_dec 1e-8 (rang (s, 0) d - rang (s, 0) d)); [lra|].
      rewrite strings_III by lra. reflexivity.
    - (* d, bk1 *) destruct (Rlt_dec 1e-8 (rang (s, 0) c - rang (s, 0) d)); [lra|]. destruct (Rlt_dec 1e-8 (rang (s, 0) d - rang (s, 0) d)); [lra|].
      destruct (Rle_dec s s0') as [Q|Q].
      + destruct (Req_dec s s0') as [Z|Z].
        * destruct (Rlt_dec 1e-8 (rang (s, 0) bk1 - rang (s, 0) c)).
          -- destruct (Rlt_dec 1e-8 (rang (s, 0) bk1 - rang (s, 0) d)); [exfalso; assert (~ s <= s2) by (intros B; apply T4 in B; lra); lra|]. rewrite strings_IV by lra. reflexivity.
          -- destruct (Rlt_dec 1e-8 (rang (s, 0) bk1 - rang (s, 0) d)); [lra|]. rewrite strings_III by lra. reflexivity.
        * assert (~ s0' <= s) as B by lra. rewrite <- T2 in B. 
          destruct (Rlt_dec 1e-8 (rang (s, 0) bk1 - rang (s, 0) c)); [lra|]. destruct (Rlt_dec 1e-8 (rang (s, 0) bk1 - rang (s, 0) d)); [lra|]. rewrite strings_III by lra. reflexivity.
      + assert (B : rang (s, 0) c <= rang (s, 0) bk1) by (apply T2; lra).
        assert (B' : rang (s, 0) c < rang (s, 0) bk1).
        { destruct B as [B|B]; [exact B|]. exfalso. assert (rang (s, 0) bk1 <= rang (s, 0) c) as B2 by lra. apply (bk1_le_c s) in B2. lra. }
        destruct (Rlt_dec 1e-8 (rang (s, 0) bk1 - rang (s, 0) c)); [|lra].
        destruct (Rle_dec s s2) as [S2|S2].
        * apply T4 in S2 as S2'. destruct (Rlt_dec 1e-8 (rang (s, 0) bk1 - rang (s, 0) d)); [lra|]. rewrite strings_IV by lra. reflexivity.
        * assert (~ rang (s, 0) bk1 <= rang (s, 0) d) by (rewrite T4; lra). destruct (Rlt_dec 1e-8 (rang (s, 0) bk1 - rang (s, 0) d)); [|lra]. rewrite strings_V by lra. unfold len. ring.
    - (* bk, c *) destruct (Rlt_dec 1e-8 (rang (s, 0) c - rang (s, 0) c)); [lra|]. destruct (Rlt_dec 1e-8 (rang (s, 0) c - rang (s, 0) d)); [lra|].
      destruct (Rle_dec s0 s) as [Q|Q].
      + assert (B : rang (s, 0) d <= rang (s, 0) bk) by (apply T1; lra).
        destruct (Rlt_dec 1e-8 (rang (s, 0) c - rang (s, 0) bk)); [lra|]. destruct (Rlt_dec 1e-8 (rang (s, 0) d - rang (s, 0) bk)); [lra|]. rewrite strings_III by lra. reflexivity.
      + assert (~ rang (s, 0) d <= rang (s, 0) bk) by (rewrite T1; lra). destruct (Rlt_dec 1e-8 (rang (s, 0) d - rang (s, 0) bk)); [|lra].
        destruct (Rle_dec s1 s) as [S2|S2].
        * apply T3 in S2 as S2'. destruct (Rlt_dec 1e-8 (rang (s, 0) c - rang (s, 0) bk)); [lra|]. rewrite strings_II by lra. unfold len. ring.
        * assert (~ rang (s, 0) c <= rang (s, 0) bk) by (rewrite T3; lra). destruct (Rlt_dec 1e-8 (rang (s, 0) c - rang (s, 0) bk)); [|lra]. rewrite strings_I by lra. ring.
    - (* bk, bk1 *)
      destruct (Rle_dec s s0') as [Q|Q].
      + (* no bend on the right, or in line *)
        assert (RB : s < s0' \/ s = s0') by lra.
        assert (Q2 : rang (s, 0) bk1 <= rang (s, 0) c) by (apply (bk1_le_c s); lra).
        destruct (Rlt_dec 1e-8 (rang (s, 0) bk1 - rang (s, 0) c)); [lra|]. destruct (Rlt_dec 1e-8 (rang (s, 0) bk1 - rang (s, 0) d)); [lra|].
        destruct (Rle_dec s0 s) as [Q3|Q3].
        * assert (B : rang (s, 0) d <= rang (s, 0) bk) by (apply T1; lra).
          destruct (Rlt_dec 1e-8 (rang (s, 0) c - rang (s, 0) bk)); [lra|]. destruct (Rlt_dec 1e-8 (rang (s, 0) d - rang (s, 0) bk)); [lra|]. rewrite strings_III by lra. reflexivity.
        * assert (~ rang (s, 0) d <= rang (s, 0) bk) by (rewrite T1; lra). destruct (Rlt_dec 1e-8 (rang (s, 0) d - rang (s, 0) bk)); [|lra].
          destruct (Rle_dec s1 s) as [S2|S2].
          -- apply T3 in S2 as S2'. destruct (Rlt_dec 1e-8 (rang (s, 0) c - rang (s, 0) bk)); [lra|]. rewrite strings_II by lra. unfold len. ring.
          -- assert (~ rang (s, 0) c <= rang (s, 0) bk) by (rewrite T3; lra). destruct (Rlt_dec 1e-8 (rang (s, 0) c - rang (s, 0) bk)); [|lra]. rewrite strings_I by lra. ring.
      + assert (B' : rang (s, 0) c < rang (s, 0) bk1).
        { assert (B : rang (s, 0) c <= rang (s, 0) bk1) by (apply T2; lra). destruct B as [B|B]; [exact B|]. exfalso. assert (rang (s, 0) bk1 <= rang (s, 0) c) as B2 by lra. apply (bk1_le_c s) in B2. lra. }
        destruct (Rlt_dec 1e-8 (rang (s, 0) bk1 - rang (s, 0) c)); [|lra].
        assert (B2 : rang (s, 0) d <= rang (s, 0) bk) by (apply T1; lra). destruct (Rlt_dec 1e-8 (rang (s, 0) d - rang (s, 0) bk)); [lra|].
        destruct (Rle_dec s s2) as [S2|S2].
        * apply T4 in S2 as S2'. destruct (Rlt_dec 1e-8 (rang (s, 0) bk1 - rang (s, 0) d)); [lra|]. rewrite strings_IV by lra. reflexivity.
        * assert (~ rang (s, 0) bk1 <= rang (s, 0) d) by (rewrite T4; lra). destruct (Rlt_dec 1e-8 (rang (s, 0) bk1 - rang (s, 0) d)); [|lra]. rewrite strings_V by lra. unfold len. ring.
  Qed.
  Lemma seen_ge s : 0 <= seen s. Proof. apply Rmax_r. Qed.
  Lemma strings_mono a b : a <= b -> 0 <= strings a - strings b.
  Proof. intros H. apply (is_RInt_ge_0 seen a b); [exact H|apply strings_int, H|intros; apply seen_ge]. Qed.
End Opening.
