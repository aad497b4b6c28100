(** Python strings: strip, split, join and friends.  Characters are bytes (Latin-1). *)
From Coq Require Import String Ascii List Bool Arith Lia.
Import ListNotations.
Open Scope string_scope.

Definition chr (n : nat) : ascii := ascii_of_nat n.
(** str.isspace of a Latin-1 character *)
Definition is_ws (c : ascii) : bool :=
  let n := nat_of_ascii c in Nat.eqb n 32 || (Nat.leb 9 n && Nat.leb n 13) || (Nat.leb 28 n && Nat.leb n 31) || Nat.eqb n 133 || Nat.eqb n 160.
Definition is_space (c : ascii) : bool := Ascii.eqb c " ".
Fixpoint lstrip (p : ascii -> bool) (s : string) : string :=
  match s with "" => "" | String c s' => if p c then lstrip p s' else s end.
Fixpoint rstrip (p : ascii -> bool) (s : string) : string :=
  match s with
  | "" => ""
  | String c s' => match rstrip p s' with "" => if p c then "" else String c "" | r => String c r end
  end.
(** str.strip() *)
Definition strip (s : string) : string := rstrip is_ws (lstrip is_ws s).
(** str.split(c) for a one-character separator: always at least one piece *)
Fixpoint split_on (c : ascii) (s : string) : list string :=
  match s with
  | "" => [""]
  | String x s' => if Ascii.eqb x c then "" :: split_on c s'
                   else match split_on c s' with p :: ps => String x p :: ps | [] => [String x ""] end
  end.
(** c in s *)
Fixpoint has_char (c : ascii) (s : string) : bool :=
  match s with "" => false | String x s' => Ascii.eqb x c || has_char c s' end.
Fixpoint spaces (n : nat) : string := match n with 0 => "" | S n' => String " " (spaces n') end.

(** d[k] = v: an existing key keeps its place *)
Fixpoint dict_set {A} (k : string) (v : A) (d : list (string * A)) : list (string * A) :=
  match d with [] => [(k, v)] | (k', v') :: d' => if String.eqb k k' then (k, v) :: d' else (k', v') :: dict_set k v d' end.

Lemma length_app s t : String.length (s ++ t) = String.length s + String.length t.
Proof. induction s; cbn; [reflexivity|f_equal; assumption]. Qed.
Lemma sapp_assoc a b c : (a ++ b) ++ c = a ++ b ++ c.
Proof. induction a as [|x a IH]; [reflexivity|]. cbn. f_equal. exact IH. Qed.
Lemma sapp_nil a : a ++ "" = a.
Proof. induction a as [|x a IH]; [reflexivity|]. cbn. f_equal. exact IH. Qed.
Lemma spaces_length n : String.length (spaces n) = n.
Proof. induction n; cbn; [reflexivity|f_equal; assumption]. Qed.
(** first character not satisfying p *)
Definition starts_not (p : ascii -> bool) (s : string) : Prop := match s with "" => True | String c _ => p c = false end.
Lemma lstrip_not p s : starts_not p s -> lstrip p s = s.
Proof. destruct s as [|c s]; [reflexivity|]. cbn. intros ->. reflexivity. Qed.
Lemma lstrip_spaces p n s : p " "%char = true -> lstrip p (spaces n ++ s) = lstrip p s.
Proof. intros H. induction n; [reflexivity|]. cbn [spaces append lstrip has_char]. rewrite H. exact IHn. Qed.
Lemma split_on_nosep c s : has_char c s = false -> split_on c s = [s].
Proof. induction s as [|x s IH]; [reflexivity|]. cbn. intros H. apply orb_false_iff in H. destruct H as [H1 H2]. rewrite H1, IH by exact H2. reflexivity. Qed.
Lemma split_on_app c s t : has_char c s = false -> split_on c (s ++ String c t) = s :: split_on c t.
Proof.
  induction s as [|x s IH]; cbn.
  - intros _. rewrite Ascii.eqb_refl. reflexivity.
  - intros H. apply orb_false_iff in H. destruct H as [H1 H2]. rewrite H1, IH by exact H2. reflexivity.
Qed.
Lemma split_on_nonnil c s : split_on c s <> [].
Proof. destruct s as [|x s]; cbn; [discriminate|]. destruct (Ascii.eqb x c); [discriminate|]. destruct (split_on c s); discriminate. Qed.
Lemma has_char_app c s t : has_char c (s ++ t) = has_char c s || has_char c t.
Proof. induction s as [|x s IH]; [reflexivity|]. cbn. rewrite IH. apply orb_assoc. Qed.
Lemma has_char_spaces c n : Ascii.eqb " " c = false -> has_char c (spaces n) = false.
Proof. intros H. induction n; [reflexivity|]. cbn [spaces append lstrip has_char]. rewrite H. exact IHn. Qed.
