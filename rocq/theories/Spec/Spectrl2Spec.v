(** The equations of Bird and Riordan (1984), "Simple solar spectral model" (SPECTRL2), as real functions; [l] in nm. *)
From Verif Require Import Base.Fl.
From Coq Require Import Reals.
Open Scope R_scope.

(** zenith [deg], relative airmass, pressure [Pa], precipitable water [cm], ozone [atm-cm], aerosol optical depth at 500 nm, its scattering albedo
    at 400 nm, Angstrom's exponent, wavelength variation of the albedo, asymmetry *)
Record atm := Atm { z_ : R; am_ : R; pr_ : R; pw_ : R; oz_ : R; aod_ : R; ssa_ : R; al_ : R; wv_ : R; gg_ : R }.
(** an atmosphere with the sun above the horizon *)
Definition physical_atm (A : atm) : Prop :=
  0 <= cosD (z_ A) /\ 0 <= am_ A /\ 0 <= pr_ A /\ 0 <= pw_ A /\ 0 <= oz_ A /\ 0 <= aod_ A /\ 0 <= ssa_ A <= 1 /\ 0 <= wv_ A /\ 0 <= gg_ A <= 0.9.
Section S.
Variable A : atm.
Definition depth (l : R) : R := aod_ A * Rpower (l / 500) (- al_ A).
Definition ssalb (l : R) : R := ssa_ A * exp (- (wv_ A * ln (l / 400) ^ 2)).
(** transmittances for relative airmass [m]; [k] is the absorption coefficient of the gas *)
Definition T_rayleigh (l m : R) : R := let u := l / 1000 in exp (- (m * pr_ A / 101300 / (u ^ 4 * (115.6406 - 1.3366 / u ^ 2)))).
Definition T_aerosol (l m : R) : R := exp (- (depth l * m)).
Definition T_water (k m : R) : R := let x := k * pw_ A * m in exp (- (0.2385 * (x / Rpower (1 + 20.07 * x) 0.45))).
Definition T_ozone (k : R) : R := exp (- (k * oz_ A * ((1 + 22 / 6370) / sqrt (cosD (z_ A) ^ 2 + 2 * (22 / 6370))))).
Definition T_mixed (k m : R) : R := let x := k * (m * pr_ A / 101300) in exp (- (1.41 * (x / Rpower (1 + 118.3 * x) 0.45))).
Definition T_scattering (l m : R) : R := exp (- (ssalb l * depth l * m)).
Definition T_absorption (l m : R) : R := exp (- ((1 - ssalb l) * depth l * m)).
(** fraction of the aerosol scatter that goes forward, for sun cosine [c] *)
Definition forward (c : R) : R :=
  let a := ln (1 - gg_ A) in 1 - 1 / 2 * exp ((a * (1.459 + a * (0.1595 + a * 0.4129)) + a * (0.0783 + a * (- (0.3824) - a * 0.5874)) * c) * c).
(** for a wavelength [l] with extraterrestrial irradiance [x] and coefficients kw, ko, ku *)
Variables l x kw ko ku : R.
Definition sky_reflectivity : R :=
  T_mixed ku 1.8 * T_water kw 1.8 * T_absorption l 1.8 * (1 / 2 * (1 - T_rayleigh l 1.8) + (1 - forward (1 / 1.8)) * T_rayleigh l 1.8 * (1 - T_scattering l 1.8)).
Definition direct : R := x * T_rayleigh l (am_ A) * T_aerosol l (am_ A) * T_water kw (am_ A) * T_ozone ko * T_mixed ku (am_ A).
Definition absorbed : R := x * cosD (z_ A) * T_ozone ko * T_mixed ku (am_ A) * T_water kw (am_ A) * T_absorption l (am_ A).
Definition rayleigh_diffuse : R := absorbed * (1 - Rpower (T_rayleigh l (am_ A)) 0.95) * (1 / 2).
Definition aerosol_diffuse : R := absorbed * Rpower (T_rayleigh l (am_ A)) 1.5 * (1 - T_scattering l (am_ A)) * forward (cosD (z_ A)).
(** what reaches the ground the first time *)
Definition first_pass : R := direct * cosD (z_ A) + rayleigh_diffuse + aerosol_diffuse.
(** ultraviolet correction *)
Definition uv : R := if Rle_dec l 450 then Rpower ((l + 550) / 1000) 1.8 else 1.
Definition diffuse (rg : R) : R := (rayleigh_diffuse + aerosol_diffuse + first_pass * sky_reflectivity * rg / (1 - sky_reflectivity * rg)) * uv.
End S.
(** Spencer's distance correction *)
Definition distance_factor (doy : R) : R :=
  let B := 2 * PI * (doy - 1) / 365 in 1.00011 + 0.034221 * cos B + 0.00128 * sin B + 0.000719 * cos (2 * B) + 7.7e-05 * sin (2 * B).
