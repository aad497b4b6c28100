(** Published spectral correction formulas, on real numbers. *)
From Coq Require Import Reals String List.
From Verif Require Import Base.Fl Base.Py.
Import ListNotations.
Open Scope R_scope.
Open Scope string_scope.

(** clamp to an interval *)
Definition between (lo x hi : R) : R := Rmin (Rmax x lo) hi.

(** ** First Solar (Lee and Panchula 2016) *)
Definition firstsolar (c0 c1 c2 c3 c4 c5 am pw : R) : R :=
  c0 + c1 * am + c2 * pw + c3 * sqrt am + c4 * sqrt pw + c5 * am / sqrt pw.
(** published coefficients by technology *)
Inductive firstsolar_published : string -> list R -> Prop :=
| fs_cdte : firstsolar_published "cdte" [0.86273; -0.038948; -0.012506; 0.098871; 0.084658; -0.0042948]
| fs_mono n : n = "monosi" \/ n = "xsi" -> firstsolar_published n [0.85914; -0.020880; -0.0058853; 0.12029; 0.026814; -0.0017810]
| fs_multi n : n = "multisi" \/ n = "polysi" -> firstsolar_published n [0.84090; -0.027539; -0.0079224; 0.13570; 0.038024; -0.0021218]
| fs_cigs : firstsolar_published "cigs" [0.85252; -0.022314; -0.0047216; 0.13666; 0.013342; -0.0008945]
| fs_asi : firstsolar_published "asi" [1.12094; -0.047620; -0.0083627; -0.10443; 0.098382; -0.0033818].

(** ** JRC (Huld et al. 2009) *)
Definition jrc (c0 c1 c2 am kc : R) : R := 1 + c0 * (exp (- kc) - exp (-1)) + c1 * (kc - 1) + c2 * (am - 1.5).
Inductive jrc_published : string -> list R -> Prop :=
| jrc_multi : jrc_published "multisi" [0.00172 / 0.00348; 0.000508 / 0.00348; 0.00000357 / 0.00348]
| jrc_cdte : jrc_published "cdte" [0.000643 / 0.001150; 0.000130 / 0.001150; 0.0000108 / 0.001150].

(** ** PVSPEC (Pelland et al. 2020): c0 kc^c1 am^c2 *)
Inductive pvspec_published : string -> list R -> Prop :=
| ps_multi : pvspec_published "multisi" [0.9847; -0.05237; 0.03034]
| ps_mono : pvspec_published "monosi" [0.9845; -0.05169; 0.03034]
| ps_fs42 : pvspec_published "fs4-2" [1.002; -0.07108; 0.02465]
| ps_fs41 : pvspec_published "fs4-1" [0.9981; -0.05776; 0.02336]
| ps_cigs : pvspec_published "cigs" [0.9791; -0.03904; 0.03096]
| ps_asi : pvspec_published "asi" [1.051; -0.1033; 0.009838].

(** ** Caballero et al. 2018: airmass polynomial, aerosol and water vapour terms around the reference atmosphere *)
Definition caballero_am (c0 c1 c2 c3 c4 am : R) : R := c0 + c1 * am + c2 * am ^ 2 + c3 * am ^ 3 + c4 * am ^ 4.
(** the aerosol slope is logarithmic in airmass for CdTe and polynomial for the other technologies *)
Definition caballero_cdte (am aod pw : R) : R :=
  caballero_am 1.0044 0.0095 (-0.0037) 0.0002 0 am + (aod - 0.084) * (-0.0046 - 0.0182 * ln am) + (pw - 1.4164) * (0.0095 + 0.0068 * ln am).
Definition caballero (f : R) (a5 a6 a7 p1 p2 am aod pw : R) : R :=
  f + (aod - 0.084) * (a5 + a6 * am + a7 * am ^ 2) + (pw - 1.4164) * (p1 + p2 * ln am).
Inductive caballero_value (am aod pw : R) : string -> R -> Prop :=
| cab_cdte : caballero_value am aod pw "cdte" (caballero_cdte am aod pw)
| cab_mono : caballero_value am aod pw "monosi" (caballero (caballero_am 0.9706 0.0377 (-0.0123) 0.0025 (-0.0002) am) 0.0159 (-0.0165) 0 (-0.0016) (-0.0027) am aod pw)
| cab_multi : caballero_value am aod pw "multisi" (caballero (caballero_am 0.9836 0.0254 (-0.0085) 0.0016 (-0.0001) am) 0.0094 (-0.0132) 0 (-0.0002) (-0.0011) am aod pw)
| cab_cigs : caballero_value am aod pw "cigs" (caballero (caballero_am 0.9801 0.0283 (-0.0092) 0.0019 (-0.0001) am) 0.0117 (-0.0126) 0 (-0.0011) (-0.0019) am aod pw)
| cab_asi : caballero_value am aod pw "asi" (caballero (caballero_am 1.1060 (-0.0848) 0.0302 (-0.0076) 0.0006 am) (-0.1283) 0.0986 (-0.0254) 0.0156 0.0146 am aod pw)
| cab_perov : caballero_value am aod pw "perovskite" (caballero (caballero_am 1.0637 (-0.0491) 0.0180 (-0.0047) 0.0004 am) (-0.0773) 0.0583 (-0.0159) 0.01251 0.0109 am aod pw).

(** Kasten and Young (1989) relative airmass at apparent zenith [z] degrees *)
Definition kasten_young (z : R) : R := 1 / (cosD z + 0.50572 * Rpower (96.07995 - z) (-1.6364)).
(** ** Polo et al. 2020, in the ratio [ram] of slant to vertical airmass *)
Definition polo (c0 c1 c2 c3 c4 c5 d0 d1 d2 ram aod pw albedo : R) : R :=
  (d0 * (albedo / 0.2) ^ 2 + d1 * (albedo / 0.2) + d2) * (c0 * ram + c1 / (c2 + Rpower ram c3) + c4 / aod + c5 * sqrt pw).
Inductive polo_published : string -> list R -> Prop :=
| po_cdte : polo_published "cdte" [-0.0009; 46.80; 49.20; -0.87; 0.00041; 0.053; 0.0021; -0.01; 1.01]
| po_mono : polo_published "monosi" [0.0027; 10.34; 9.48; 0.31; 0.00077; 0.006; 0; -0.003; 1.0]
| po_cigs : polo_published "cigs" [0.0017; 2.33; 1.30; 0.11; 0.00098; -0.018; -0.0009; -0.0003; 1]
| po_asi : polo_published "asi" [0.0024; 7.32; 7.09; -0.72; -0.0013; 0.089; 0.0056; -0.020; 1.014].

(** ** Spectra: (wavelength, value) pairs in order of wavelength *)
Inductive ascending : list (R * R) -> Prop :=
| asc_nil : ascending []
| asc_one p : ascending [p]
| asc_cons p q l : fst p < fst q -> ascending (q :: l) -> ascending (p :: q :: l).
Definition nonneg (e : list (R * R)) : Prop := Forall (fun p => 0 <= snd p) e.
Definition scaled_by (c : R) (e : list (R * R)) : list (R * R) := map (fun p => (fst p, c * snd p)) e.
(** [a] and [b] are consecutive samples *)
Definition adjacent (a b : R * R) (l : list (R * R)) : Prop := exists pre post, l = (pre ++ a :: b :: post)%list.
