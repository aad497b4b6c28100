(** What the single diode model says, over the reals (Bishop 1988; Merten et al. 1998 for the recombination term). *)
From Coq Require Import Reals.
From Verif Require Import Base.Fl Base.Py Model.SingleDiode.
Open Scope R_scope.

(** Light current, saturation current, series resistance, shunt conductance, n*Ns*Vth, recombination parameter d2/(mu tau),
    built-in voltage (None: infinite or recombination off), and Bishop's avalanche breakdown factor, voltage, exponent. *)
Record diode := Diode { dIL : R; dI0 : R; dRs : R; dG : R; da : R; dD : R; dVbi : option R;
                        dB : R; dVbr : R; dm : R }.

(** loss currents and the current through the terminals as functions of the junction voltage [x] *)
Definition recombination (p : diode) (x : R) : R :=
  match dVbi p with Some b => dIL p * dD p / (b - x) | None => 0 end.
Definition avalanche (p : diode) (x : R) : R := dB p * (x * dG p) * Rpower (1 - x / dVbr p) (- dm p).
Definition terminal_current (p : diode) (x : R) : R :=
  dIL p - dI0 p * (exp (x / da p) - 1) - x * dG p - recombination p x - avalanche p x.

(** the single diode equation: a terminal voltage and current belong together *)
Definition on_curve (p : diode) (v i : R) : Prop := i = terminal_current p (v + i * dRs p).

(** parameters of a real device *)
Definition physical (p : diode) : Prop :=
  0 <= dIL p /\ 0 < dI0 p /\ 0 <= dRs p /\ 0 <= dG p /\ 0 < da p /\ 0 <= dD p /\
  match dVbi p with Some b => 0 < b | None => True end.
(** junction voltages where the equation makes sense: below the built-in voltage, above the breakdown voltage *)
Definition below_builtin (p : diode) (x : R) : Prop := match dVbi p with Some b => x < b | None => True end.
Definition above_breakdown (p : diode) (x : R) : Prop := 0 < 1 - x / dVbr p.
Definition valid_vd (p : diode) (x : R) : Prop := below_builtin p x /\ above_breakdown p x.

(** the arguments of a bishop88 call that denote the device [p]: an infinite shunt resistance is no shunt, a
    recombination parameter <= 0 or an infinite built-in voltage is no recombination *)
Definition denotes (g : bargs) (p : diode) : Prop :=
  b_iph g = #(dIL p) /\ b_isat g = #(dI0 p) /\ b_rs g = #(dRs p) /\ b_a g = #(da p) /\ da p <> 0 /\
  ((exists r, b_rsh g = #r /\ r <> 0 /\ dG p = 1 / r) \/ (b_rsh g = PInf /\ dG p = 0)) /\
  ((exists d, b_d2mutau g = #d /\ d <= 0 /\ dVbi p = None /\ dD p = 0) \/
   (b_d2mutau g = #(dD p) /\ 0 < dD p /\
    ((exists b, b_NsVbi g = #b /\ dVbi p = Some b) \/ (b_NsVbi g = PInf /\ dVbi p = None)))) /\
  b_bf g = #(dB p) /\ b_bv g = #(dVbr p) /\ dVbr p <> 0 /\ b_be g = #(dm p).
(** default arguments: no recombination and no breakdown *)
Definition simple_diode (IL I0 Rs G a : R) : diode := Diode IL I0 Rs G a 0 None 0 (-5.5) 3.28.

(** a point of the curve where the power is largest *)
Definition max_power_at (p : diode) (v i : R) : Prop :=
  on_curve p v i /\
  forall v' i', on_curve p v' i' -> below_builtin p (v' + i' * dRs p) -> v' * i' <= v * i.

(** Lambert's W, principal branch, on nonnegative reals: the w >= 0 with w e^w = x *)
Definition is_W (x w : R) : Prop := 0 <= w /\ w * exp w = x.
(** a shunt resistance argument (positive, or infinite for no shunt) and its conductance *)
Definition shunt_of (rsh : fl) (G : R) : Prop := (exists r, rsh = #r /\ 0 < r /\ G = 1 / r) \/ (rsh = PInf /\ G = 0).

(** [x] is a junction voltage that the bishop88 solvers look for: a root of the residual of the call *)
Definition vd_for_voltage (p : diode) (v x : R) : Prop := x - terminal_current p x * dRs p = v.
Definition vd_for_current (p : diode) (i x : R) : Prop := terminal_current p x = i.

(** the contract of a bracketing root finder: called with a continuous function that is finite on the bracket and changes
    sign over it, it returns a point of the bracket at most [tol] away from a root *)
Definition bracketing (tol : R) (solver : (fl -> fl) -> fl -> fl -> kwargs -> res fl) : Prop :=
  forall f F a b kw, a <= b -> (forall x, a <= x <= b -> f #x = #(F x)) ->
    (forall x, a <= x <= b -> continuity_pt F x) -> F a * F b <= 0 ->
    exists x r, solver f #a #b kw = Ok #x /\ a <= x <= b /\ a <= r <= b /\ F r = 0 /\ Rabs (x - r) <= tol.

(** the open-circuit voltage of the device without shunt and recombination, an upper bound on the true one *)
Definition ideal_voc (p : diode) : R := da p * ln (dIL p / dI0 p + 1).
(** the method names that select a bracketing solver, in any case *)
Definition bracket_method (sp : scipy) (m : string) (solver : (fl -> fl) -> fl -> fl -> kwargs -> res fl) : Prop :=
  (lower m = "brentq"%string /\ solver = brentq sp) \/ (lower m = "chandrupatla"%string /\ find_root sp = Some solver).
