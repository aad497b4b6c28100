(** Model of pvlib/snow.py.  Series are lists over one shared DatetimeIndex given as times in hours; the
    numeric parameters that enter the slide amount are reals, the weather series may contain nan/inf. *)
From Verif Require Import Base.Fl Base.Py Base.Series.
Open Scope R_scope.

(** snow.py:16-71 fully_covered_nrel.  [freq] is pd.infer_freq(index) in hours (None when no frequency can be
    inferred); pd.infer_freq raises ValueError for fewer than 3 rows. *)
Definition hourly_snow_rate (times : list R) (snowfall : list fl) (freq : option R) : list fl :=
  let rate := zip_with (fun s (d : option R) => match d with Some h => fdiv s (Fin h) | None => NaN end)
                       snowfall (series_diff times) in
  match freq with
  | Some h => set_first (match snowfall with s0 :: _ => fdiv s0 (Fin h) | [] => NaN end) rate
  | None => set_first (Fin 0) rate
  end.
Definition fully_covered_nrel (times : list R) (snowfall : list fl) (snow_depth : option (list fl))
    (threshold_snowfall threshold_depth : fl) (freq : option R) : res (list bool) :=
  if Nat.ltb (length times) 3 then Err ValueError else
  let covered := map (fun r => fgtb r threshold_snowfall) (hourly_snow_rate times snowfall freq) in
  Ok (match snow_depth with
      | Some d => zip_with andb covered (map (fun x => fgeb x threshold_depth) d)
      | None => covered
      end).

(** snow.py:74-176 coverage_nrel *)
Definition coverage_nrel (times : list R) (snowfall poa_irradiance temp_air : list fl) (surface_tilt : R)
    (snow_depth : option (list fl)) (initial_coverage : R) (threshold_snowfall threshold_depth : fl)
    (can_slide_coefficient : fl) (slide_amount_coefficient : R) (freq : option R) : res (list R) :=
  let* new_snowfall := fully_covered_nrel times snowfall snow_depth threshold_snowfall threshold_depth freq in
  let can_slide := zip_with (fun t p => fgtb t (fdiv p can_slide_coefficient)) temp_air poa_irradiance in
  (* the first element is NaT/nan at 150-151 and overwritten at 156; 0 stands for it here *)
  let slide_amt := map (fun d : option R =>
       match d with Some h => slide_amount_coefficient * sinD surface_tilt * h | None => 0 end)
     (series_diff times) in
  let slide_amt := assign_mask (map negb can_slide) 0 slide_amt in
  let slide_amt := assign_mask new_snowfall 0 slide_amt in
  let slide_amt := set_first 0 slide_amt in
  let slide_amt :=
    match snow_depth with
    | Some d => assign_mask (map (fun x => fltb x threshold_depth) d) 1 slide_amt
    | None => slide_amt
    end in
  let cumulative_sliding := group_cumsum (cumcount new_snowfall) slide_amt in
  let snow_coverage := assign_mask new_snowfall (Some 1) (map (fun _ => None) times) in
  let snow_coverage :=
    match snow_coverage with
    | None :: l => Some initial_coverage :: l
    | l => l
    end in
  let snow_coverage := ffill snow_coverage in
  Ok (zip_with (fun c s => Rmax ((match c with Some x => x | None => 0 end) - s) 0)
               snow_coverage cumulative_sliding).

(** snow.py:179-216 dc_loss_nrel *)
Definition dc_loss_nrel (snow_coverage num_strings : fl) : fl :=
  (fceil (snow_coverage * num_strings) / num_strings)%fl.

(** snow.py:219-246 _townsend_effective_snow *)
Definition townsend_effective_snow (snow_total snow_events : fl) : fl :=
  (let snow_events_no_zeros := fmax snow_events #1 in
   let effective_snow := #0.5 * snow_total * (#1 + #1 / snow_events_no_zeros) in
   where_ (fgtb snow_events #0) effective_snow #0)%fl.

(** one month of inputs *)
Record month := Month { snow_total : fl; snow_events : fl; m_tilt : fl; m_rh : fl; m_temp : fl; m_poa : fl }.
(** np.roll(x, 1) *)
Definition roll1 {A} (l : list A) : list A :=
  match rev l with [] => [] | x :: r => x :: rev r end.

(** snow.py:249-400 loss_townsend; the monthly inputs are one list of records *)
Definition townsend_month (prev cur : month)
   (slant_height lower_edge_height string_factor angle_of_repose front_side_fraction : fl) : fl :=
  (let poa_global_kWh := m_poa cur / #1000 in
   let relative_humidity_fraction := m_rh cur / #100 in
   let slant_height_inches := slant_height * #39.37 in
   let lower_edge_height_inches := lower_edge_height * #39.37 in
   let temp_air_kelvin := m_temp cur + #273.15 in
   let C1 := #57000 in
   let C2 := #0.51 in
   let effective_snow := townsend_effective_snow (snow_total cur / #2.54) (snow_events cur) in
   let effective_snow_prev := townsend_effective_snow (snow_total prev / #2.54) (snow_events prev) in
   let effective_snow_weighted := #(1/3) * effective_snow_prev + #(2/3) * effective_snow in
   let lower_edge_distance := fmax (lower_edge_height_inches ^ 2 - effective_snow_weighted ^ 2) #0.1 in
   let gamma := slant_height_inches * effective_snow_weighted * cosd (m_tilt cur) / lower_edge_distance
                * #2 * tand angle_of_repose in
   let ground_interference_term := #1 - C2 * fexp (- gamma) in
   let loss_fraction := C1 * effective_snow_weighted * (cosd (m_tilt cur)) ^ 2 * ground_interference_term
                        * relative_humidity_fraction / temp_air_kelvin ^ 2
                        / fpow poa_global_kWh #0.67 * string_factor in
   let loss_fraction := loss_fraction * front_side_fraction in
   fclip loss_fraction #0 #1)%fl.
Definition loss_townsend (months : list month)
   (slant_height lower_edge_height string_factor angle_of_repose front_side_fraction : fl) : list fl :=
  zip_with (fun prev cur => townsend_month prev cur slant_height lower_edge_height string_factor
                              angle_of_repose front_side_fraction) (roll1 months) months.
