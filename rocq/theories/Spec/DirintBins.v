(** The published DIRINT intervals (Perez et al. 1992), written independently of the code:
    [xxx_bin_spec x n] says that x lies in the n-th interval (0-based). *)
From Verif Require Import Base.Fl.
Open Scope R_scope.

Definition in_edges (edges : list R) (n : nat) (x : R) : Prop :=
  exists lo hi, nth_error edges n = Some lo /\ nth_error edges (S n) = Some hi /\ lo <= x < hi.

Definition kt_edges : list R := [0; 0.24; 0.4; 0.56; 0.7; 0.8].
Definition kt_bin_spec (k : R) (n : nat) : Prop := in_edges kt_edges n k \/ (n = 5%nat /\ 0.8 <= k <= 1).
Definition zenith_edges : list R := [0; 25; 40; 55; 70; 80].
Definition zenith_bin_spec (z : R) (n : nat) : Prop := in_edges zenith_edges n z \/ (n = 5%nat /\ 80 <= z).
(** -1 encodes "no dew point given" *)
Definition w_edges : list R := [0; 1; 2; 3].
Definition w_bin_spec (w : R) (n : nat) : Prop :=
  in_edges w_edges n w \/ (n = 3%nat /\ 3 <= w) \/ (n = 4%nat /\ w = -1).
(** -1 encodes "no stability index" *)
Definition dkt_edges : list R := [0; 0.015; 0.035; 0.07; 0.15; 0.3].
Definition dkt_bin_spec (d : R) (n : nat) : Prop :=
  in_edges dkt_edges n d \/ (n = 5%nat /\ 0.3 <= d <= 1) \/ (n = 6%nat /\ d = -1).
