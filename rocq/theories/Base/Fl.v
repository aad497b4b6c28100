(** Numeric domain of the model: floats without rounding.

    [fl] is exact real arithmetic extended with the IEEE-754 special values that numpy code can
    observe.  Not modelled: rounding, overflow of finite values to inf, signed zeros. *)
From Coq Require Export Reals Lra Lia Bool List.
From Coq Require Import Psatz ZArith.
Export ListNotations.
Open Scope R_scope.

Inductive fl : Type := Fin (r : R) | PInf | NInf | NaN.

Declare Scope fl_scope.
Delimit Scope fl_scope with fl.
Bind Scope fl_scope with fl.
Notation "# r" := (Fin r%R) (at level 8, r at level 7, format "# r").

(** ** Decidable comparisons on R *)
Definition Rltb (a b : R) : bool := if Rlt_dec a b then true else false.
Definition Rleb (a b : R) : bool := if Rle_dec a b then true else false.
Definition Reqb (a b : R) : bool := if Req_EM_T a b then true else false.

Lemma Rltb_spec a b : reflect (a < b) (Rltb a b).
Proof. unfold Rltb; destruct (Rlt_dec a b); constructor; auto. Qed.
Lemma Rleb_spec a b : reflect (a <= b) (Rleb a b).
Proof. unfold Rleb; destruct (Rle_dec a b); constructor; auto. Qed.
Lemma Reqb_spec a b : reflect (a = b) (Reqb a b).
Proof. unfold Reqb; destruct (Req_EM_T a b); constructor; auto. Qed.
Lemma Rltb_true a b : Rltb a b = true <-> a < b.
Proof. destruct (Rltb_spec a b); split; auto; discriminate. Qed.
Lemma Rltb_false a b : Rltb a b = false <-> b <= a.
Proof. destruct (Rltb_spec a b); split; intros; try discriminate; auto; lra. Qed.
Lemma Rleb_true a b : Rleb a b = true <-> a <= b.
Proof. destruct (Rleb_spec a b); split; auto; discriminate. Qed.
Lemma Rleb_false a b : Rleb a b = false <-> b < a.
Proof. destruct (Rleb_spec a b); split; intros; try discriminate; auto; lra. Qed.
Lemma Reqb_true a b : Reqb a b = true <-> a = b.
Proof. destruct (Reqb_spec a b); split; auto; discriminate. Qed.
Lemma Reqb_false a b : Reqb a b = false <-> a <> b.
Proof. destruct (Reqb_spec a b); split; intros; auto; try discriminate; contradiction. Qed.

(** ** Sign of a real, used by the rules for infinities *)
Definition Rpos (a : R) : bool := Rltb 0 a.
Definition Rneg (a : R) : bool := Rltb a 0.

(** ** Arithmetic *)
Definition fneg (x : fl) : fl :=
  match x with Fin a => Fin (- a) | PInf => NInf | NInf => PInf | NaN => NaN end.

Definition fadd (x y : fl) : fl :=
  match x, y with
  | NaN, _ | _, NaN => NaN
  | Fin a, Fin b => Fin (a + b)
  | PInf, NInf | NInf, PInf => NaN
  | PInf, _ | _, PInf => PInf
  | NInf, _ | _, NInf => NInf
  end.

Definition fsub (x y : fl) : fl := fadd x (fneg y).

(** the infinity of the sign of [a]; nan for a = 0 *)
Definition sinf (a : R) : fl :=
  if Rpos a then PInf else if Rneg a then NInf else NaN.

Definition fmul (x y : fl) : fl :=
  match x, y with
  | NaN, _ | _, NaN => NaN
  | Fin a, Fin b => Fin (a * b)
  | Fin a, PInf | PInf, Fin a => sinf a
  | Fin a, NInf | NInf, Fin a => sinf (- a)
  | PInf, PInf | NInf, NInf => PInf
  | PInf, NInf | NInf, PInf => NInf
  end.

(** numpy division; division by zero gives the infinity with the sign of the numerator
    (zero is taken as +0) and 0/0 = nan. *)
Definition fdiv (x y : fl) : fl :=
  match x, y with
  | NaN, _ | _, NaN => NaN
  | Fin a, Fin b => if Reqb b 0 then sinf a else Fin (a / b)
  | Fin _, (PInf | NInf) => Fin 0
  | PInf, Fin b => if Rneg b then NInf else PInf
  | NInf, Fin b => if Rneg b then PInf else NInf
  | (PInf | NInf), (PInf | NInf) => NaN
  end.

Notation "- x" := (fneg x) : fl_scope.
Infix "+" := fadd : fl_scope.
Infix "-" := fsub : fl_scope.
Infix "*" := fmul : fl_scope.
Infix "/" := fdiv : fl_scope.

(** integer powers with a literal exponent, [x**n] *)
Fixpoint fpown (x : fl) (n : nat) : fl :=
  match n with
  | O => Fin 1
  | S O => x
  | S n' => fmul x (fpown x n')
  end.
Notation "x ^ n" := (fpown x n) : fl_scope.

Definition fabs (x : fl) : fl :=
  match x with Fin a => Fin (Rabs a) | PInf | NInf => PInf | NaN => NaN end.

(** ** Comparisons: false as soon as an operand is nan *)
Definition fltb (x y : fl) : bool :=
  match x, y with
  | NaN, _ | _, NaN => false
  | Fin a, Fin b => Rltb a b
  | NInf, NInf => false | NInf, _ => true
  | PInf, _ => false
  | Fin _, PInf => true | Fin _, NInf => false
  end.
Definition fleb (x y : fl) : bool :=
  match x, y with
  | NaN, _ | _, NaN => false
  | Fin a, Fin b => Rleb a b
  | NInf, _ => true
  | PInf, PInf => true | PInf, _ => false
  | Fin _, PInf => true | Fin _, NInf => false
  end.
Definition feqb (x y : fl) : bool :=
  match x, y with
  | Fin a, Fin b => Reqb a b
  | PInf, PInf | NInf, NInf => true
  | _, _ => false
  end.
Definition fgtb x y := fltb y x.
Definition fgeb x y := fleb y x.
Definition fneqb x y := negb (feqb x y).

Definition isnan (x : fl) : bool := match x with NaN => true | _ => false end.
Definition isinf (x : fl) : bool := match x with PInf | NInf => true | _ => false end.
Definition isfinite (x : fl) : bool := match x with Fin _ => true | _ => false end.

(** ** np.maximum / np.minimum: propagate nan *)
Definition fmax (x y : fl) : fl :=
  match x, y with
  | NaN, _ | _, NaN => NaN
  | Fin a, Fin b => Fin (Rmax a b)
  | PInf, _ | _, PInf => PInf
  | NInf, z | z, NInf => z
  end.
Definition fmin (x y : fl) : fl :=
  match x, y with
  | NaN, _ | _, NaN => NaN
  | Fin a, Fin b => Fin (Rmin a b)
  | NInf, _ | _, NInf => NInf
  | PInf, z | z, PInf => z
  end.
(** np.clip *)
Definition fclip (x lo hi : fl) : fl := fmin (fmax x lo) hi.
(** np.fmax / np.fmin: ignore nan *)
Definition nfmax (x y : fl) : fl :=
  match x, y with NaN, z | z, NaN => z | _, _ => fmax x y end.
Definition nfmin (x y : fl) : fl :=
  match x, y with NaN, z | z, NaN => z | _, _ => fmin x y end.

(** np.where(c, x, y) on one element *)
Definition where_ {A} (c : bool) (x y : A) : A := if c then x else y.

(** np.nan_to_num on nan only *)
Definition nan_to (d x : fl) : fl := match x with NaN => d | _ => x end.

(** np.sign *)
Definition fsign (x : fl) : fl :=
  match x with
  | Fin a => if Rpos a then Fin 1 else if Rneg a then Fin (-1) else Fin 0
  | PInf => Fin 1 | NInf => Fin (-1) | NaN => NaN
  end.

(** ** Elementary functions *)
Definition fsqrt (x : fl) : fl :=
  match x with
  | Fin a => if Rneg a then NaN else Fin (sqrt a)
  | PInf => PInf | NInf | NaN => NaN end.
Definition fexp (x : fl) : fl :=
  match x with Fin a => Fin (exp a) | PInf => PInf | NInf => Fin 0 | NaN => NaN end.
Definition fln (x : fl) : fl :=
  match x with
  | Fin a => if Rpos a then Fin (ln a) else if Reqb a 0 then NInf else NaN
  | PInf => PInf | NInf | NaN => NaN end.
Definition fsin (x : fl) : fl := match x with Fin a => Fin (sin a) | _ => NaN end.
Definition fcos (x : fl) : fl := match x with Fin a => Fin (cos a) | _ => NaN end.
(** np.tan as sin/cos under the division rule above *)
Definition ftan (x : fl) : fl := fdiv (fsin x) (fcos x).
Definition fasin (x : fl) : fl :=
  match x with Fin a => if Rleb (-1) a && Rleb a 1 then Fin (asin a) else NaN | _ => NaN end.
Definition facos (x : fl) : fl :=
  match x with Fin a => if Rleb (-1) a && Rleb a 1 then Fin (acos a) else NaN | _ => NaN end.
Definition fatan (x : fl) : fl :=
  match x with
  | Fin a => Fin (atan a) | PInf => Fin (PI / 2) | NInf => Fin (- (PI / 2)) | NaN => NaN end.

(** atan2 on finite arguments (y first).  The sign of zero is not modelled: atan2(0, x<0) = pi,
    atan2(0,0) = 0. *)
Definition Ratan2 (y x : R) : R :=
  if Rltb 0 x then atan (y / x)
  else if Rltb x 0 then (if Rltb y 0 then atan (y / x) - PI else atan (y / x) + PI)
  else if Rltb 0 y then PI / 2
  else if Rltb y 0 then - (PI / 2)
  else 0.
(** np.arctan2; infinite arguments are not needed by the modelled code with finite inputs and are
    given the IEEE values. *)
Definition fatan2 (y x : fl) : fl :=
  match y, x with
  | NaN, _ | _, NaN => NaN
  | Fin b, Fin a => Fin (Ratan2 b a)
  | Fin b, PInf => Fin 0
  | Fin b, NInf => if Rneg b then Fin (- PI) else Fin PI
  | PInf, Fin _ => Fin (PI / 2)
  | NInf, Fin _ => Fin (- (PI / 2))
  | PInf, PInf => Fin (PI / 4) | NInf, PInf => Fin (- (PI / 4))
  | PInf, NInf => Fin (3 * PI / 4) | NInf, NInf => Fin (- (3 * PI / 4))
  end.

(** np.power with a non-literal exponent: IEEE pow, except that a negative base with a non-zero
    exponent gives nan here (pvlib raises only non-negative bases to variable exponents). *)
Definition fpow (x y : fl) : fl :=
  match x, y with
  | _, Fin b =>
      if Reqb b 0 then Fin 1
      else match x with
           | Fin a => if Rpos a then Fin (Rpower a b)
                      else if Reqb a 0 then (if Rpos b then Fin 0 else PInf)
                      else NaN
           | PInf => if Rpos b then PInf else Fin 0
           | NInf | NaN => NaN
           end
  | Fin a, PInf =>
      if Reqb a 1 then Fin 1 else if Rneg a then NaN else if Rltb a 1 then Fin 0 else PInf
  | Fin a, NInf =>
      if Reqb a 1 then Fin 1 else if Rneg a then NaN else if Rltb a 1 then PInf else Fin 0
  | Fin a, NaN => if Reqb a 1 then Fin 1 else NaN
  | PInf, PInf => PInf | PInf, NInf => Fin 0
  | _, _ => NaN
  end.

(** np.radians / np.degrees *)
Definition Rrad (a : R) : R := a * PI / 180.
Definition Rdeg (a : R) : R := a * 180 / PI.
Definition fradians (x : fl) : fl := fdiv (fmul x (Fin PI)) (Fin 180).
Definition fdegrees (x : fl) : fl := fdiv (fmul x (Fin 180)) (Fin PI).

(** tools.cosd, sind, tand, acosd, asind (pvlib/tools.py:14-123) *)
Definition cosd (x : fl) : fl := fcos (fradians x).
Definition sind (x : fl) : fl := fsin (fradians x).
Definition tand (x : fl) : fl := ftan (fradians x).
Definition asind (x : fl) : fl := fdegrees (fasin x).
Definition acosd (x : fl) : fl := fdegrees (facos x).
(** the same on R, for statements about finite inputs *)
Definition cosD (a : R) : R := cos (Rrad a).
Definition sinD (a : R) : R := sin (Rrad a).
Definition tanD (a : R) : R := tan (Rrad a).

(** sum of a list, from the left (numpy sum without pairwise reordering) *)
Definition fsum (l : list fl) : fl := fold_left fadd l (Fin 0).

(** python real modulo [a % b] for b > 0 (np.mod): result in [0,b) *)
Definition Rmodp (a b : R) : R := a - b * IZR (Int_part (a / b)).
Definition fmod (x y : fl) : fl :=
  match x, y with
  | Fin a, Fin b => if Reqb b 0 then NaN else Fin (Rmodp a b)
  | Fin a, PInf => if Rneg a then PInf else Fin a
  | Fin a, NInf => if Rpos a then NInf else Fin a
  | _, _ => NaN
  end.
(** np.floor, np.ceil *)
Definition Rfloor (a : R) : R := IZR (Int_part a).
Definition Rceil (a : R) : R := - Rfloor (- a).
Definition ffloor (x : fl) : fl := match x with Fin a => Fin (Rfloor a) | _ => x end.
Definition fceil (x : fl) : fl := match x with Fin a => Fin (Rceil a) | _ => x end.
