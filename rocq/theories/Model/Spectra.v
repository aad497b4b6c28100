(** Model of pvlib/spectrum/irradiance.py:15-117 get_reference_spectra and pvlib/spectrum/response.py:20-80 get_example_spectral_response.
    Wavelengths and values are finite numbers.  The csv file that pandas reads (spectrum/irradiance.py:98-103) and scipy's make_interp_spline are arguments. *)
From Verif Require Import Base.Fl Base.Py Model.Spectrum.
Open Scope R_scope.

(** a frame: the index (wavelengths) and the columns by name, in order *)
Record frame := { windex : list R; columns : list (string * list R) }.
(** spectrum/irradiance.py:84-86 *)
Definition SPECTRA_FILES : list (string * string) := [("ASTM G173-03", "ASTMG173.csv")]%string.
(** 105-115: np.interp(x=wavelengths, xp=index, fp=column, left=0, right=0) for every column *)
Definition interpolate_column (xp x fp : list R) : list R := map (fun w => np_interp0 w (combine xp fp)) x.
(** 89-117; the name is looked up as it is *)
Definition get_reference_spectra (read_csv : string -> frame) (wavelengths : option (list R)) (standard : string) : res frame :=
  match lookup standard SPECTRA_FILES with
  | None => Err ValueError
  | Some file =>
    let t := read_csv file in
    match wavelengths with
    | None => Ok t
    | Some w => Ok {| windex := w; columns := map (fun c => (fst c, interpolate_column (windex t) w (snd c))) (columns t) |}
    end
  end.

(** spectrum/response.py:52-64 *)
Definition SR_DATA : list (R * R) :=
  [(290, 0.00); (350, 0.27); (400, 0.37); (500, 0.52); (650, 0.71); (800, 0.88); (900, 0.97); (950, 1.00); (1000, 0.93); (1050, 0.58); (1100, 0.21); (1150, 0.05); (1190, 0.00)].
(** 66-68: np.arange(280, 1200 + 5.0, 5.0), which has ceil((1205 - 280) / 5) = 185 elements *)
Definition default_wavelength : list R := map (fun i => 280 + INR i * 5) (seq 0 185).
(** 71-74; [spline x y] is make_interp_spline(x, y, k=3) *)
Definition example_value (spline : list R -> list R -> R -> R) (w : R) : R :=
  let x := map fst SR_DATA in
  let y := map snd SR_DATA in
  if Rltb w (hd 0 x) || Rltb (last x 0) w then 0 else spline x y w.
(** 76-80: the series, wavelength and response *)
Definition get_example_spectral_response (spline : list R -> list R -> R -> R) (wavelength : option (list R)) : list (R * R) :=
  let w := match wavelength with Some w => w | None => default_wavelength end in
  map (fun l => (l, example_value spline l)) w.
