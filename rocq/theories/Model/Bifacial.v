(** pvlib/bifacial: utils.py, infinite_sheds.py, ants2d.py, loss_models.py.
    One value of every array argument at a time; the squeezing of array dimensions is not modelled.  [max_rows] is a
    natural number. *)
From Verif Require Import Base.Fl Base.Py Model.Irradiance Model.Shading Model.Tracking Model.Atmosphere.
From Coq Require Import ZArith.
Open Scope fl_scope.

(** a point (x, y) of the plane perpendicular to the rows *)
Definition point : Type := fl * fl.
(** np.arange(lo, lo + n) *)
Definition arange (lo : Z) (n : nat) : list fl := map (fun i => #(IZR (lo + Z.of_nat i))) (seq 0 n).

(** utils.py:11-38 _solar_projection_tangent *)
Definition solar_projection_tangent (solar_zenith solar_azimuth surface_azimuth : fl) : fl :=
  let rotation := solar_azimuth - surface_azimuth in
  cosd rotation * tand solar_zenith.

(** utils.py:118-144: share of the ground segment [a, b] shaded by the row with number [k] *)
Definition row_shade (tracker_rotation phi gcr height pitch a b k : fl) : fl :=
  let collector_width := pitch * gcr in
  let Lcostheta := collector_width * cosd tracker_rotation in
  let Lsintheta := collector_width * sind tracker_rotation in
  let tanphi := tand phi in
  let c0 := k * pitch + #0.5 * Lcostheta in
  let c1 := height + #0.5 * Lsintheta in
  let d0 := k * pitch - #0.5 * Lcostheta in
  let d1 := height - #0.5 * Lsintheta in
  let cp := c0 + c1 * tanphi in
  let dp := d0 + d1 * tanphi in
  let swap := fgtb dp cp in
  let cp' := where_ swap dp cp in
  let dp' := where_ swap cp dp in
  let fs := #1 in
  let fs := where_ (fleb dp' a && fleb a cp' && fltb cp' b) ((cp' - a) / (b - a)) fs in
  let fs := where_ (fltb dp' a && fltb cp' a) #0 fs in
  let fs := where_ (fltb a dp' && fleb dp' b && fgeb cp' b) ((b - dp') / (b - a)) fs in
  let fs := where_ (fltb a dp' && fltb dp' b && fltb a cp' && fltb cp' b) ((cp' - dp') / (b - a)) fs in
  where_ (fgtb dp' b && fgtb cp' b) #0 fs.
(** utils.py:100-156 *)
Definition unshaded_ground_segment (tracker_rotation phi gcr height pitch : fl) (max_rows : nat) (max_zenith g0 g1 : fl) : fl :=
  let a := g0 * pitch in
  let b := g1 * pitch in
  let fs := map (row_shade tracker_rotation phi gcr height pitch a b) (arange (- Z.of_nat max_rows) (2 * max_rows + 2)) in
  let f_gnd_beam := #1 - fclip (fsum fs) #0 #1 in
  where_ (fgtb (fabs phi) max_zenith) #0 f_gnd_beam.
(** utils.py:41-156 _unshaded_ground_fraction for scalar g0, g1 *)
Definition unshaded_ground_fraction (tracker_rotation phi gcr : fl) (height pitch : option fl) (max_rows : nat)
    (max_zenith g0 g1 : fl) : res fl :=
  let '(height, pitch) := if feqb g0 #0 && feqb g1 #1 then (Some #1, Some (#1 / gcr)) else (height, pitch) in
  match height, pitch with
  | Some h, Some p => Ok (unshaded_ground_segment tracker_rotation phi gcr h p max_rows max_zenith g0 g1)
  | _, _ => Err TypeError
  end.

(** utils.py:159-238 vf_ground_sky_2d; phi[0], phi[1] of one row, sorted (224) *)
Definition row_angles (rotation gcr x pitch height k : fl) : fl * fl :=
  let width := gcr * pitch / #2 in
  let distance := (k - x) * pitch in
  let dy := width * sind rotation in
  let dx := width * cosd rotation in
  let p0 := fatan2 (height + dy) (distance + dx) in
  let p1 := fatan2 (height - dy) (distance - dx) in
  (fmin p0 p1, fmax p0 p1).
Fixpoint sky_gaps (l : list (fl * fl)) : list fl :=
  match l with
  | p :: ((q :: _) as r) => fmax (fcos (snd q) - fcos (fst p)) #0 :: sky_gaps r
  | _ => []
  end.
Definition vf_ground_sky_2d (rotation gcr x pitch height : fl) (max_rows : nat) : fl :=
  fsum (sky_gaps (map (row_angles rotation gcr x pitch height) (arange (- Z.of_nat max_rows) (2 * max_rows + 2)))) / #2.

(** utils.py:705-711; (..)**0.5 is the square root *)
Definition dist (p1 p2 : point) : fl := fsqrt ((fst p1 - fst p2) ^ 2 + (snd p1 - snd p2) ^ 2).
Definition angle (p1 p2 : point) : fl := fatan2 (snd p2 - snd p1) (fst p2 - fst p1).
(** utils.py:673-700, one of the four strings: from p to q around the left or the right obstruction *)
Definition string_length (p q ob_left ob_right : point) : fl :=
  let s := where_ (fgtb (angle p q - angle p ob_left) #1e-8) (dist p ob_left + dist ob_left q) (dist p q) in
  where_ (fgtb (angle p ob_right - angle p q) #1e-8) (dist p ob_right + dist ob_right q) s.
(** utils.py:644-702 _obstructed_string_lengths -> (ac, ad, bc, bd) *)
Definition obstructed_string_lengths (a b c d ob_left ob_right : point) : fl * fl * fl * fl :=
  (string_length a c ob_left ob_right, string_length a d ob_left ob_right,
   string_length b c ob_left ob_right, string_length b d ob_left ob_right).

(** utils.py:322-363: one slat *)
Definition ground_sky_slat (tracker_rotation gcr height pitch g0 g1 k : fl) : fl :=
  let collector_width := pitch * gcr in
  let Lcostheta := collector_width * cosd tracker_rotation in
  let Lsintheta := collector_width * sind tracker_rotation in
  let a := (g0 * pitch, #0) in
  let b := (g1 * pitch, #0) in
  let sign := fsign tracker_rotation in
  let c := ((k + #1) * pitch + sign * #0.5 * Lcostheta, height + sign * #0.5 * Lsintheta) in
  let d := (fst c - pitch, snd c) in
  let left := (k * pitch - #0.5 * Lcostheta, height - #0.5 * Lsintheta) in
  let right := (k * pitch + #0.5 * Lcostheta, height + #0.5 * Lsintheta) in
  let ob_left := if fgtb (angle a left) (angle a right) then right else left in
  let left := (fst left + pitch, snd left) in
  let right := (fst right + pitch, snd right) in
  let ob_right := if fgtb (angle b left) (angle b right) then left else right in
  let '(ac, ad, bc, bd) := obstructed_string_lengths a b c d ob_left ob_right in
  #0.5 * (#1 / ((g1 - g0) * pitch)) * ((ac + bd) - (bc + ad)).
(** utils.py:241-369 vf_ground_sky_2d_integ; the deprecated npoints and vectorize are dropped *)
Definition vf_ground_sky_2d_integ (tracker_rotation gcr height pitch : fl) (max_rows : nat) (g0 g1 : fl) : fl :=
  fsum (map (fun k => fmax (ground_sky_slat tracker_rotation gcr height pitch g0 g1 k) #0)
            (arange (- Z.of_nat max_rows) (2 * max_rows + 1))).

(** utils.py:372-395 _vf_poly *)
Definition vf_poly (surface_tilt gcr x delta : fl) : fl :=
  let a := #1 / gcr in
  let c := cosd surface_tilt in
  fsqrt (a * a + #2 * delta * a * c * x + x * x).
(** utils.py:398-424 vf_row_sky_2d *)
Definition vf_row_sky_2d (surface_tilt gcr x : fl) : fl :=
  let p := vf_poly surface_tilt gcr (#1 - x) #(-1) in
  #0.5 * (#1 + (#1 / gcr * cosd surface_tilt - (#1 - x)) / p).
(** utils.py:427-489 vf_row_sky_2d_integ *)
Definition vf_row_sky_2d_integ (surface_tilt gcr x0 x1 : fl) : fl :=
  let swap := fltb surface_tilt #0 in
  let '(x0, x1) := (where_ swap (#1 - x1) x0, where_ swap (#1 - x0) x1) in
  let u := fabs (x1 - x0) in
  let p0 := vf_poly surface_tilt gcr (#1 - x0) #(-1) in
  let p1 := vf_poly surface_tilt gcr (#1 - x1) #(-1) in
  where_ (fltb u #1e-6) (vf_row_sky_2d surface_tilt gcr x0) (#0.5 * (#1 + #1 / u * (p1 - p0))).
(** utils.py:492-518 vf_row_ground_2d *)
Definition vf_row_ground_2d (surface_tilt gcr x : fl) : fl :=
  let p := vf_poly surface_tilt gcr x #1 in
  #0.5 * (#1 - (#1 / gcr * cosd surface_tilt + x) / p).

(** utils.py:592-636 *)
Definition row_ground_slat (surface_tilt gcr height pitch x0 x1 g0 g1 k : fl) : fl :=
  let surface_tilt := where_ (feqb surface_tilt #180) #179.9999 surface_tilt in
  let surface_tilt := where_ (feqb surface_tilt #(-180)) #(-179.9999) surface_tilt in
  let collector_width := pitch * gcr in
  let Lcostheta := collector_width * cosd surface_tilt in
  let Lsintheta := collector_width * sind surface_tilt in
  let ob_right := (- pitch - #0.5001 * Lcostheta, height - #0.5001 * fabs Lsintheta) in
  let ob_left := (fst ob_right + pitch, snd ob_right) in
  let invert := fltb surface_tilt #0 in
  let temp := fst ob_right in
  let ob_right := (where_ invert (- fst ob_left) (fst ob_right), snd ob_right) in
  let ob_left := (where_ invert (- temp) (fst ob_left), snd ob_left) in
  let a := ((x0 - #0.5) * Lcostheta, height + (x0 - #0.5) * Lsintheta) in
  let b := ((x1 - #0.5) * Lcostheta, height + (x1 - #0.5) * Lsintheta) in
  let c := ((k + g0) * pitch, #0) in
  let d := ((k + g1) * pitch, #0) in
  let '(ac, ad, bc, bd) := obstructed_string_lengths a b c d ob_left ob_right in
  #1 / (#2 * (x1 - x0) * collector_width) * ((ac + bd) - (bc + ad)).
Definition vf_row_ground_segments (surface_tilt gcr height pitch x0 x1 : fl) (max_rows : nat) (g0 g1 : fl) : fl :=
  fsum (map (fun k => fmax (row_ground_slat surface_tilt gcr height pitch x0 x1 g0 g1 k) #0)
            (arange (- Z.of_nat max_rows) (2 * max_rows))).
(** utils.py:521-641 vf_row_ground_2d_integ for scalar x0, x1, g0, g1 *)
Definition vf_row_ground_2d_integ (surface_tilt gcr : fl) (height pitch : option fl) (x0 x1 : fl) (max_rows : nat) (g0 g1 : fl) : res fl :=
  let '(height, pitch) := if feqb g0 #0 && feqb g1 #1 && feqb x0 #0 && feqb x1 #1 then (Some #1, Some (#1 / gcr)) else (height, pitch) in
  match height, pitch with
  | Some h, Some p => Ok (vf_row_ground_segments surface_tilt gcr h p x0 x1 max_rows g0 g1)
  | _, _ => Err TypeError
  end.

(** ** infinite_sheds.py *)
(** infinite_sheds.py:12-40 *)
Definition poa_ground_shadows (ghi dhi albedo f_gnd_beam vf_gnd_sky : fl) : fl :=
  albedo * (f_gnd_beam * (ghi - dhi) + vf_gnd_sky * dhi).
(** infinite_sheds.py:43-78 *)
Definition poa_sky_diffuse_pv (dhi gcr surface_tilt : fl) : fl := dhi * vf_row_sky_2d_integ surface_tilt gcr #0 #1.
(** infinite_sheds.py:81-106; max_rows 20 is the default of vf_row_ground_2d_integ *)
Definition poa_ground_pv (poa_ground gcr surface_tilt : fl) : res fl :=
  let* vf := vf_row_ground_2d_integ surface_tilt gcr None None #0 #1 20 #0 #1 in
  Ok (poa_ground * vf).
(** infinite_sheds.py:109-166 _shaded_fraction *)
Definition sheds_shaded_fraction (solar_zenith solar_azimuth surface_tilt surface_azimuth gcr : fl) : fl :=
  let tan_phi := solar_projection_tangent solar_zenith solar_azimuth surface_azimuth in
  let x := gcr * (sind surface_tilt * tan_phi + cosd surface_tilt) in
  let f_x := #1 - #1 / x in
  let ao := aoi surface_tilt surface_azimuth solar_zenith solar_azimuth in
  let f_x := where_ (fltb ao #90) f_x #1 in
  where_ (fgtb x #1) f_x #0.
(** np.arange needs a finite number of rows *)
Definition rows_of (x : fl) : res nat :=
  match fceil x with Fin r => Ok (Z.to_nat (Int_part r)) | NaN => Err ValueError | _ => Err ValueError end.
(** infinite_sheds.py:292-312: circumsolar irradiance moved from dhi to dni; the value of the pair is (dhi, dni) *)
Definition circ (s : sky) : fl := match sky_circ s with Some c => c | None => #0 end.
Definition sheds_sky (model : string) (dhi dni : fl) (dni_extra : option fl) (solar_zenith solar_azimuth : fl) : res (fl * fl) :=
  if String.eqb model "haydavies" then
    match dni_extra with
    | None => Err ValueError
    | Some x =>
      let circumsolar_horizontal := circ (haydavies #0 #180 dhi dni x solar_zenith solar_azimuth None) in
      let circumsolar_normal := circ (haydavies solar_zenith solar_azimuth dhi dni x solar_zenith solar_azimuth None) in
      Ok (dhi - circumsolar_horizontal, dni + circumsolar_normal)
    end
  else Ok (dhi, dni).
(** infinite_sheds.py:169-373 get_irradiance_poa; the result is the dict 367-370.  atand is fdegrees (fatan _). *)
Definition get_irradiance_poa (surface_tilt surface_azimuth solar_zenith solar_azimuth gcr height pitch ghi dhi dni albedo : fl)
    (model : string) (dni_extra : option fl) (iam : fl) : res (list (string * fl)) :=
  let* (dhi, dni) := sheds_sky model dhi dni dni_extra solar_zenith solar_azimuth in
  let* max_rows := rows_of (height / (pitch * tand #5)) in
  let tanphi := solar_projection_tangent solar_zenith solar_azimuth surface_azimuth in
  let phi := fdegrees (fatan tanphi) in
  let* f_gnd_beam := unshaded_ground_fraction surface_tilt phi gcr None None 10 #85 #0 #1 in
  let vf_gnd_sky := vf_ground_sky_2d_integ surface_tilt gcr height pitch max_rows #0 #1 in
  let f_x := sheds_shaded_fraction solar_zenith solar_azimuth surface_tilt surface_azimuth gcr in
  let poa_sky_pv := poa_sky_diffuse_pv dhi gcr surface_tilt in
  let ground_diffuse := poa_ground_shadows ghi dhi albedo f_gnd_beam vf_gnd_sky in
  let* poa_gnd_pv := poa_ground_pv ground_diffuse gcr surface_tilt in
  let poa_diffuse := poa_gnd_pv + poa_sky_pv in
  let poa_beam := beam_component surface_tilt surface_azimuth solar_zenith solar_azimuth dni in
  let poa_direct := poa_beam * (#1 - f_x) * iam in
  let poa_global := poa_direct + poa_diffuse in
  Ok [("poa_global", poa_global); ("poa_direct", poa_direct); ("poa_diffuse", poa_diffuse);
      ("poa_ground_diffuse", poa_gnd_pv); ("poa_sky_diffuse", poa_sky_pv); ("shaded_fraction", f_x)]%string.
(** infinite_sheds.py:593-596 _backside *)
Definition backside (tilt surface_azimuth : fl) : fl * fl := (#180 - tilt, fmod (#180 + surface_azimuth) #360).
(** infinite_sheds.py:558-573, 579-585 *)
Definition rename (side : string) (d : list (string * fl)) : list (string * fl) :=
  map (fun p => (if String.eqb (fst p) "poa_global" then "poa_" ++ side
                 else if String.eqb (fst p) "poa_direct" then "poa_" ++ side ++ "_direct"
                 else if String.eqb (fst p) "poa_diffuse" then "poa_" ++ side ++ "_diffuse"
                 else if String.eqb (fst p) "poa_sky_diffuse" then "poa_" ++ side ++ "_sky_diffuse"
                 else if String.eqb (fst p) "poa_ground_diffuse" then "poa_" ++ side ++ "_ground_diffuse"
                 else if String.eqb (fst p) "shaded_fraction" then "shaded_fraction_" ++ side
                 else fst p, snd p)%string) d.
(** infinite_sheds.py:376-590 get_irradiance *)
Definition sheds_get_irradiance (surface_tilt surface_azimuth solar_zenith solar_azimuth gcr height pitch ghi dhi dni albedo : fl)
    (model : string) (dni_extra : option fl) (iam_front iam_back bifaciality shade_factor transmission_factor : fl)
    : res (list (string * fl)) :=
  let '(backside_tilt, backside_sysaz) := backside surface_tilt surface_azimuth in
  let* front := get_irradiance_poa surface_tilt surface_azimuth solar_zenith solar_azimuth gcr height pitch ghi dhi dni albedo model dni_extra iam_front in
  let* back := get_irradiance_poa backside_tilt backside_sysaz solar_zenith solar_azimuth gcr height pitch ghi dhi dni albedo model dni_extra iam_back in
  let output := (rename "front" front ++ rename "back" back)%list in
  let* f := getitem output "poa_front" in
  let* b := getitem output "poa_back" in
  let effects := (#1 + shade_factor) * (#1 + transmission_factor) in
  Ok (output ++ [("poa_global"%string, f + b * bifaciality * effects)])%list.

(** ** loss_models.py:5-163 power_mismatch_deline with an iterable of coefficients (constant term first);
    a fill factor of 0 or None leaves the polynomial alone.  Multiplying the polynomial multiplies every coefficient. *)
Definition polynomial (coef : list fl) (x : fl) : fl := fold_right (fun c acc => c + x * acc) #0 coef.
Definition power_mismatch_deline (rmad : fl) (coefficients : list fl) (fill_factor : option fl) (fill_factor_reference : fl) : fl :=
  let coef := match fill_factor with
              | Some f => if feqb f #0 then coefficients else map (fun c => c * f / fill_factor_reference) coefficients
              | None => coefficients
              end in
  polynomial coef rmad.

(** ** ants2d.py *)
(** ants2d.py:17-88 _shaded_fraction *)
Definition ants_shaded_fraction (tracker_rotation phi gcr x0 x1 : fl) : fl :=
  let f_s := shaded_fraction1d phi #90 #0 tracker_rotation #1 (#1 / gcr) #0 #0 #0 None in
  let swap := fltb tracker_rotation #0 in
  let '(x0, x1) := (where_ swap (#1 - x1) x0, where_ swap (#1 - x0) x1) in
  fclip ((f_s - x0) / (x1 - x0)) #0 #1.
(** ants2d.py:91-216 _ants2d_singleside for one row segment and one time; [ground]: per ground segment (g0, g1, ground
    irradiance, albedo) *)
Record side := Side { sd_global : fl; sd_direct : fl; sd_diffuse : fl; sd_sky : fl; sd_ground : fl; sd_shaded : fl }.
Definition ants_singleside (tracker_rotation cos_aoi phi gcr height pitch dni dhi : fl) (ground : list (fl * fl * fl * fl))
    (x0 x1 : fl) (max_rows : nat) : side :=
  let projection := fmax cos_aoi #0 in
  let row_shaded_fraction := ants_shaded_fraction tracker_rotation phi gcr x0 x1 in
  let poa_direct := dni * projection * (#1 - row_shaded_fraction) in
  let poa_sky_diffuse := vf_row_sky_2d_integ tracker_rotation gcr x0 x1 * dhi in
  let poa_ground_diffuse :=
    fsum (map (fun s => let '(g0, g1, irr, albedo) := s in
                 vf_row_ground_segments tracker_rotation gcr height pitch x0 x1 max_rows g0 g1 * albedo * irr) ground) in
  let poa_diffuse := poa_ground_diffuse + poa_sky_diffuse in
  let poa_global := poa_direct + poa_diffuse in
  Side poa_global poa_direct poa_diffuse poa_sky_diffuse poa_ground_diffuse row_shaded_fraction.
(** ants2d.py:219-267 _apply_sky_diffuse_model -> (dni, dhi).  [f] is the table of perez_driesse. *)
Definition apply_sky_diffuse_model (f : nat -> nat -> fl -> fl) (dni dhi : fl) (model : string) (solar_zenith solar_azimuth : fl)
    (dni_extra airmass : option fl) : res (fl * fl) :=
  if mem model ["haydavies"; "perez"; "perez-driesse"]%string then
    let* func :=
      if String.eqb model "haydavies" then
        match dni_extra with
        | None => Err ValueError
        | Some x => Ok (fun tilt az => Ok (haydavies tilt az dhi dni x solar_zenith solar_azimuth None))
        end
      else match dni_extra, airmass with
        | Some x, Some am =>
          Ok (fun tilt az => if String.eqb model "perez" then perez "allsitescomposite1990" tilt az dhi dni x solar_zenith solar_azimuth am
                             else Ok (perez_driesse f tilt az dhi dni x solar_zenith solar_azimuth (Some am)))
        | _, _ => Err ValueError
        end in
    let* h := func #0 #180 in
    let* n := func solar_zenith solar_azimuth in
    Ok (dni + circ n, dhi - circ h)
  else if String.eqb model "isotropic" then Ok (dni, dhi)
  else Err ValueError.
(** ants2d.py:270-296 _apply_ground_slope -> (height, pitch, gcr, tracker_rotation, ghi) *)
Definition wrap180 (x : fl) : fl := fmod (x + #180) #360 - #180.
Definition apply_ground_slope (height pitch gcr tracker_rotation dni dhi solar_zenith solar_azimuth axis_tilt axis_azimuth
    cross_axis_slope : fl) : fl * fl * fl * fl * fl :=
  let slope_azimuth := axis_azimuth + fdegrees (fatan2 (sind cross_axis_slope) (cosd cross_axis_slope * sind axis_tilt)) in
  let slope_tilt := acosd (cosd axis_tilt * cosd cross_axis_slope) in
  let ghi := dhi + dni * fmax (aoi_projection slope_tilt slope_azimuth solar_zenith solar_azimuth) #0 in
  (height * cosd slope_tilt, pitch / cosd cross_axis_slope, gcr * cosd cross_axis_slope,
   wrap180 (tracker_rotation - cross_axis_slope), ghi).
(** np.linspace(0, 1, n + 1) as (start, end) pairs, ants2d.py:508-520 *)
Inductive segments := Count (n : nat) | Pairs (l : list (fl * fl)).
Definition segment_list (s : segments) : list (fl * fl) :=
  match s with
  | Count n => map (fun i => (#(INR i / INR n), #(INR (S i) / INR n))) (seq 0 n)
  | Pairs l => l
  end.
(** ants2d.py:299-635 get_irradiance at one time: front and back for every row segment.  Defaults of airmass and
    dni_extra (488-494, from the zenith and from the dates) are the caller's [dni_extra], [airmass];
    one albedo for all ground segments; the reshaping of the output (602-635) is not modelled. *)
Definition ants_get_irradiance (f : nat -> nat -> fl -> fl) (tracker_rotation axis_azimuth solar_zenith solar_azimuth gcr height pitch
    ghi dhi dni albedo : fl) (model : string) (dni_extra airmass : option fl) (row_segments ground_segments : segments)
    (axis_tilt cross_axis_slope : fl) (max_rows : option nat) : res (list side * list side * list (fl * fl)) :=
  let* (dni, dhi) := apply_sky_diffuse_model f dni dhi model solar_zenith solar_azimuth dni_extra airmass in
  let true_tracker_rotation := tracker_rotation in
  let '(height, pitch, gcr, tracker_rotation, ghi) :=
    if fneqb axis_tilt #0 || fneqb cross_axis_slope #0 then
      apply_ground_slope height pitch gcr tracker_rotation dni dhi solar_zenith solar_azimuth axis_tilt axis_azimuth cross_axis_slope
    else (height, pitch, gcr, tracker_rotation, ghi) in
  let rows := segment_list row_segments in
  let grounds := segment_list ground_segments in
  let* max_rows := match max_rows with Some n => Ok n | None => rows_of (height / (pitch * tand #4)) end in
  let phi := projected_solar_zenith_angle solar_zenith solar_azimuth axis_tilt axis_azimuth - cross_axis_slope in
  let ground := map (fun g =>
      let '(g0, g1) := g in
      let vf_gnd_sky := vf_ground_sky_2d_integ tracker_rotation gcr height pitch max_rows g0 g1 in
      let unshaded := unshaded_ground_segment tracker_rotation phi gcr height pitch max_rows #85 g0 g1 in
      let ground_shaded_fraction := #1 - unshaded in
      ((#1 - ground_shaded_fraction) * (ghi - dhi), vf_gnd_sky * dhi)) grounds in
  let lit := map (fun p => let '((g0, g1), (dir, dif)) := p in (g0, g1, dir + dif, albedo)) (combine grounds ground) in
  let cos_aoi r := let '(t, az) := calc_surface_orientation r axis_tilt axis_azimuth in aoi_projection t az solar_zenith solar_azimuth in
  let front := map (fun x => ants_singleside tracker_rotation (cos_aoi true_tracker_rotation) phi gcr height pitch dni dhi lit
                               (fst x) (snd x) max_rows) rows in
  let back := map (fun x => ants_singleside (wrap180 (tracker_rotation + #180)) (cos_aoi (wrap180 (true_tracker_rotation + #180))) phi gcr
                               height pitch dni dhi lit (#1 - snd x) (#1 - fst x) max_rows) rows in
  Ok (front, back, ground).
