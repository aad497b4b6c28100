# Formal model of pvlib-python: design

Target: `/repo/pvlib` (python, read as text, never run).  Model and proofs: `/verif/rocq/theories`,
Coq 8.16.1, logical root `Verif`.

## 1. Layout

| directory | content |
|---|---|
| `theories/Base/`  | numeric domain `fl`, python-like results (`res`), helper lemmas |
| `theories/Model/` | definitions only: one file per pvlib module; every definition cites file and lines in `/repo/pvlib` |
| `theories/Spec/`  | small independent specifications (vectors, rotations, recurrences, decision tables) |
| `theories/Proofs/`| lemmas |
| `theories/Props/` | the property theorems, each `exact lemma`, `Print Assumptions` under it, and a non-vacuity `Example` |

## 2. Modelling conventions (part of the trusted base)

* **Numbers.** A numpy float is modelled by `fl = Fin (r:R) | PInf | NInf | NaN`: exact real
  arithmetic plus the IEEE-754 *special value* rules used by pvlib (NaN propagation, comparisons with
  NaN false, `x/0 = +-inf` or NaN, `np.maximum/minimum` propagate NaN, `np.fmin/fmax` ignore it,
  `np.clip`, `np.where`).  Not modelled: rounding, overflow of finite values, subnormals, the sign of
  zero (`1/-0.0`), and python's `ZeroDivisionError`/numpy warnings (the numpy array semantics are
  used throughout).
* **Arrays.** Functions that are element-wise in numpy/pandas are modelled on one element; the
  lifting to arrays/Series by broadcasting (and pandas index alignment) is not modelled, except where the
  property is about the series (snow, soiling, prilliman, fuentes, wavelets, clear-sky detection ...): there a
  series is a `list`, timestamps are integers.
* **Control.** Exceptions are values of `res A = Ok a | Err e`.  Strings are Coq `string`s; dicts are
  key lists or association lists; loops are structural recursion or fuelled with an explicit
  out-of-fuel result excluded by theorem.
* **External code.** Functions of third-party libraries that cannot be written down (scipy `erf`,
  `lambertw`, user callables, the numerical submodels called by `ModelChain`) are arguments of the
  definitions; the hypotheses needed about them are in the theorem statements.
* **Literals.** Decimal literals of the source are written as the exact decimal real.

## 3. Trusted base

* Coq 8.16.1 kernel (and `vm_compute` where used).
* Axioms: only those of the standard library's real numbers, as printed by `Print Assumptions` under
  every theorem: `ClassicalDedekindReals.sig_forall_dec`, `ClassicalDedekindReals.sig_not_dec`,
  `FunctionalExtensionality.functional_extensionality_dep` (and `Classical_Prop.classic` where
  stated).  Purely discrete theorems are closed under the global context.
* Faithfulness of `Model/*.v` to the cited lines (by reading).

## 4. Plan per property

* **C01** AOI projection is the dot product of normal and sun vector — model irradiance.aoi_projection on fl; spec: dot product of ENU unit vectors; trig identity + Cauchy-Schwarz.
* **C02** Angle of incidence is the angle between normal and sun — model irradiance.aoi; acos o cos range; periodicity of sin/cos.
* **C03** Plane-of-array energy accounting — model get_sky_diffuse dispatch, get_total_irradiance, poa_components, beam_component; direct computation.
* **C04** A horizontal plane sees exactly DHI — each transposition model at tilt 0, finite inputs in the stated ranges; algebra.
* **C05** Sky diffuse components add up — models return total and components; algebra with case split on the masks.
* **C06** Sky diffuse is never negative — max(…,0) lemmas on fl; monotonicity of products for isotropic/klucher/reindl.
* **C07** Ground-reflected irradiance range — get_ground_diffuse incl. SURFACE_ALBEDOS lookup; cos range and monotonicity.
* **C08** Perez clearness bins partition the clearness axis — np.digitize modelled on the literal bin list; exhaustive bin theorem.
* **C09** Decomposition models satisfy the closure equation — erbs, erbs_driesse, orgill_hollands, boland, louche on fl; algebra for each branch.
* **C10** Diffuse fraction stays physical — polynomial range proofs (monotonicity/interval arguments by hand, nra).
* **C11** Clearness and clear-sky indices are bounded — clip/min/max lemmas on fl.
* **C12** complete_irradiance fills exactly one missing component — complete_irradiance with option-valued arguments; dni() mask logic.
* **C13** DIRINT binning is total and in range — _dirint_bins/_dirint_coeffs binning on fl; table index ranges; coefficient table itself abstract of shape 6x6x7x5.
* **C14** GTI-DIRINT keeps the best iterate — _gti_dirint_lt_90 loop as fuelled recursion over an arbitrary mismatch oracle; loop invariant.
* **C15** Extraterrestrial radiation stays near the solar constant — asce/spencer formulas on R; bounds by |cos|,|sin|<=1 style estimates.
* **C16** Tracker rotation respects its limits — singleaxis rotation on fl; clip lemma.
* **C17** True tracking minimises the angle of incidence — rotation geometry on R; optimal rotation = argument of the projected sun vector (Cauchy-Schwarz in the plane).
* **C18** Backtracking removes row-to-row shade — backtracking correction and shaded_fraction1d on R; trig identity.
* **C19** Surface orientation describes the rotated normal — rotation matrices spec; acos/asin/atan2 case analysis.
* **C20** Tracker axis lies in the slope plane — plane/line geometry on R.
* **C21** Projected solar zenith is the sun's rotation angle — atan2 polar form.
* **C22** Shading factors are fractions — clip lemmas; bounds.
* **C23** Masking and ground angles are the row-geometry angles — atan geometry.
* **C24** Sandia inverter clips and sleeps — inverter.sandia on fl.
* **C25** Multi-MPPT Sandia inverter generalises the single-input one — lists of inputs; permutation invariance.
* **C26** ADR inverter window and limits — inverter.adr on fl.
* **C27** PVWatts inverter range and rating point — inverter.pvwatts on fl; piecewise monotone.
* **C28** Transformer output conserves energy — quadratic formula with sqrt.
* **C29** Snow coverage is a fraction and follows the slide recurrence — series as list with time deltas; simulation between cumulative formulation and recurrence.
* **C30** Snow DC loss is the covered strings — ceil spec.
* **C31** Townsend snow loss is a fraction — 12-month list, cyclic predecessor; clip.
* **C32** Kimber soiling follows its recurrence — series as list; simulation with recurrence.
* **C33** HSU soiling ratio range and cleaning — erf as parameter with monotonicity hypotheses.
* **C34** Golden-section search brackets and terminates — loop as recursion; bracket invariant; golden ratio contraction.
* **C35** Linke turbidity lookup index is always valid — integer/real rounding; range proof.
* **C36** Dublin Julian Day conversion round-trips — instants as integers (microseconds).
* **C37** Incidence-angle modifiers are physical — Fresnel algebra; monotone trig.
* **C38** IAM input validation — decision logic.
* **C39** Cell temperature models reduce to air temperature in the dark — formulas on fl; exponent positivity, monotone.
* **C40** GenericLinearModel conversions are exact — algebraic inverses.
* **C41** Prilliman smoothing is a local weighted average — list model of weighted moving average with NaN counting.
* **C42** Relative airmass is undefined below the horizon and at least 1 above — formula per model; NaN mask.
* **C43** Humidity/dew point and Angstrom conversions are inverse — ln/exp inverses.
* **C44** Single-diode parameters scale from reference conditions — formulas at reference conditions.
* **C45** System scaling of module output — record/assoc list model.
* **C46** PVWatts DC and losses algebra — algebra; list product.
* **C47** DC ohmic loss is the stated percentage at reference conditions — algebra; decision logic.
* **C48** Per-array argument validation — list model of _validate_per_array/_unwrap_single_value.
* **C49** Model inference picks the documented model — decision logic over key sets (strings).
* **C50** Model setters accept exactly the documented names — string dispatch incl. substring operator.
* **C51** run_model results do not depend on earlier runs — state machine of ModelChain.results with oracles; frame lemma.
* **C52** Single-element list input is equivalent to bare input — same state machine; relation between bare and wrapped runs.
* **C53** Measured temperatures take precedence — same state machine.
* **C54** Input validation of run methods — same state machine with an evaluation trace.
* **C55** Transposition model dispatch — string dispatch with recorded callee arguments.
* **C56** Pressure, water vapour and turbidity conversions — real analysis of power/exponential formulas.
* **C57** Inland water albedo — Rpower monotonicity; argument-combination decision logic.
* **C58** parameter dictionaries — association lists; lookup characterisation.
* **C59** sampling intervals — nanosecond integers; decision logic with division by the interval.
* **C60** normalisation/derivative helpers — algebra on fl, list maximum.
* **C61** Marion integration — finite sums over the grid of zenith/azimuth cells; weighted average bounds.
* **C62** IAM conversion and fitting — the optimiser is an argument with an "is a minimiser" hypothesis; the misfit is the spec's integral of squares; decision logic of `_process_return`.
* **C63** analytic diffuse modifiers — closed forms; symmetry sky/ground.
* **C64** Fuentes — the time loop as a fold over samples; invariant that every temperature stays between the driving bounds.
* **C65** parameter sets — literal table, lookup theorem over all names.
* **C66, C67** ModelChain pipeline and complete_irradiance — state machine with an environment record of sub-models; a run is compared with a spec that composes the documented stages array by array.
* **C68–C70** Array/PVSystem — records over string-keyed dictionaries; decision logic and argument binding.
* **C71** SAPM DC — closed forms with NaN/zero cases.
* **C72–C75** spectrum — coefficient tables transcribed by `tools/gen_tables.py`, trapezoid sums by induction on the grid, name normalisation on character lists.
* **C76–C80** bishop88 — real analysis with Coquelicot derivatives: the curve parametrised by diode voltage is monotone, the intermediate value theorem gives the unique solution, scipy's root finders are arguments with a root hypothesis.
* **C81, C82** Lambert W — W defined by the intermediate value theorem; quadratic/cubic convergence of the hard-coded Newton and Halley steps; error bounds of the explicit solutions.
* **C83** seven points — equality of model programs; the golden-section routine of C34.
* **C84** Batzelis — closed form; calculus for the ideal device.
* **C85–C89** view factors — angles by geometry, integral means by Coquelicot integrals of the pointwise factors, Hottel's crossed strings by the triangle inequality, finite sums over rows by induction.
* **C90–C93** infinite_sheds/ants2d — row geometry, component accounting, error conditions.
* **C94** DISC/DIRINDEX — polynomial/exponential bounds, series alignment.
* **C95–C98** clear sky models — closed forms; exponential bounds; interpolation on the month grid.
* **C99** detect_clearsky — windows of a list, list statistics, fixed-point loop by induction on passes, least squares optimality.
* **C100-C102** ADR, Huld, Batzelis — real analysis of the published curves; curve_fit is an argument with a least-loss contract.
* **C103** analytical position — direction vectors; acos/sign algebra.  **C104** harmonics bounded by amplitude, periodicity.
* **C105** hour angle, sunrise — a time zone is a record of offset and localisation functions; integer nanoseconds.
* **C106** ephemeris — contraction of the Kepler step over the whole list, IVT for the root, half-angle formula, rotations.
* **C107** get_solarposition — dispatch to calls recorded as data.
* **C108, C109** SPA — periodic series as sums over generated tables (`Model/SpaTables.v`), bounded term by term; rotation algebra to the direction of the sun from the ellipsoid.
* **C110** threads — each thread is the list of its writes; an interleaving is an inductive merge; last-write reasoning over all interleavings.
* **C111** delta T, Julian day — piecewise polynomials; calendar arithmetic on Z.  **C112** rise/set/transit — modular arithmetic of fractions of a day, quadratic interpolation.
* **C113** wrappers — module/environment state machine over call histories.
* **C114** time zones — the setter as a partial update; integers printed by the standard library's decimal printer, injectivity; histories by induction.
* **C115, C116** Location — composition of the modelled functions; keyword dictionaries as association lists; end-to-end physical theorem through C35, C42, C95, C96.
* **C117, C118** `scaling.wvm` — lists of samples; moving averages against an index-set specification of the reflected series; Abel summation for the range; `scipy.optimize.fmin` is an argument, assumed to find the number of sites within 1/2 where C118 says so (met by an Example).
* **C119** `latlon_to_xy` — real arithmetic.
* **C120** `rectify_iv_curve` — lists of optional reals; sorting and grouping proved equal to the set specification.
* **C121** `_numdiff` — field identities for the five-point weights; second derivative refuted on a concrete parabola.
* **C122** `_schumaker_qspline` — rows built in the code's order and sorted; the sorted rows are proved to be the interleaving of data points and knots; joins by field arithmetic.
* **C123** `astm_e1036` — decision logic; numpy's polynomial fits and roots are arguments.
* **C124** `fit_sandia_simple` — polyfit and lstsq are arguments, assumed only to minimise the squared residuals of the data at hand; inverse by field arithmetic, loop by induction.
* **C125** `_fit_sandia_cocontent` — the three overlapping slices of the cumulative sum are proved equal to one integral of the piecewise quadratic (Coquelicot); the co-content formula by differentiating along the curve; the 5x5 transformation inverted explicitly.
* **C126** `fit_desoto` — scipy's root is an argument; the five residuals are shown to vanish iff the datasheet points lie on the curve (maximum power by the convexity result of C77).
* **C127** `fit_desoto_batzelis` — closed formulas with the Lambert W contract of C81; residuals by field arithmetic.
* **C128** `fit_cec_sam` — the SAM module is an argument returning a dictionary.
* **C129** Sandia resistances — Lambert W (`calc_phi`), 500 iterations kept abstract (`Nat.iter`), fixed points characterised through the maximum power condition.
* **C130** Sandia saturation current — one step by monotonicity of the open circuit voltage; the loop by induction over rounds.
* **C131** Sandia filter — least squares line by completing the square.
* **C132** Sandia loops — lists of curves of any length, loop invariants over rounds.
* **C133** Sandia extraction — statsmodels RLM, scipy least_squares as arguments with contracts (`exact_solver`: data with exactly one exact solution are solved).
* **C134** Sandia fits end to end — composition of the above.
* **C135** PVsyst fit to IEC 61853 data, step by step — numpy lstsq (`lsq_solver`: minimises the squared residuals) and Polynomial.fit (`exact_line`) as arguments; error bounds from ln(1 - d).
* **C136** PVsyst fit to IEC 61853 data, control flow; `pvsyst_temperature_coeff` by the mean value theorem.
* **C137** `spectrl2` direct — the table is transcribed (`tools/gen_spectrl2.py`) and validated row by row; one scalar function per row; equations of the report in `Spec/Spectrl2Spec.v`.
* **C138** `spectrl2` diffuse — forward fraction and reflectivity bounded by elementary inequalities, reflections as a geometric series.
* **C139** `spectrl2` tilted — composition with the haydavies and ground models of C01-C05.
* **C140** `inverter.fit_sandia` — numpy's polyfit is an argument that must find exact parabolas and lines (such functions are exhibited); roots of the fitted parabola computed exactly, lines through the three levels; nan cases by evaluation.
* **C141, C142** `_deprecation.py` — calls return (warnings, result); strings compared exactly with a sentence-by-sentence text.
* **C143** `read_panond` structure — dicts are objects in a heap (a stale reference after a blank line is real); grammar of sections, rendering to lines and content in `Spec/PanondSpec.v`; induction over sections with a frame condition on the heap.
* **C144** `read_panond` values — Python's float() and int() are arguments; splitting at characters on Coq strings (`Base/PyStr.v`).
* **C145** TMY3 index — calendar of Python's datetime (`Base/Calendar.v`, integers), local time in minutes; rows after pandas' parsing.
* **C146** TMY3/EPW header — strings; float() and int() are arguments; truncation int() on reals.
* **C147** TMY2 — field table compared with the manual's positions (`Spec/TmySpec.v`), induction over the format; date fields as integers.
* **C148** EPW index — as C145.
* **C149** SURFRAD/SOLRAD — zero-padded formatting and strptime (regular-expression alternatives with backtracking) on lists of digits in `Base/Strptime.v`; padded numbers are read back exactly, by induction over the format.
* **C150** CRN/MIDC — as C149, two fields read from one padded number.
* **C151** SRML index — integer arithmetic on HHMM.
* **C152** SRML columns — induction over the columns with the invariant "done ones masked, others not".
* **C153** downloads — reading one file is an argument (found, not found, other exception); induction over the list of files; file names as strings, injective.
* **C154** BSRN header — readline, readline(n), strip and split on strings; the text is a concatenation of fields of the given widths; int() and float() are arguments.
* **C155** BSRN records — the scan over the lines with its two dictionaries; induction over the records from the left.
* **C156** BSRN tables — fixed-width substrings of lines laid out with the Fortran formats; pandas' conversion of a field is an argument that ignores blanks around it.
* **C157** BSRN results — the parts composed; induction over the list of months.
* **C158** PVGIS time zone — np.roll as (i - k) mod n; labels as UTC minutes; modular arithmetic.
* **C159** PVGIS hourly csv — the reader loops on strings, inductive descriptions of the layout, induction over the lines; strptime of Base/Strptime.
* **C160** PVGIS TMY csv — as C159; the number of rows is an argument.
* **C161** PVGIS formats — case analysis with the parsers as arguments; filter/map for the horizon.
* **C162** NASA POWER — columns as named lists, dictionary stated separately; case analysis on names, reversed table computed.
* **C163** Solcast — loop invariant of the rename-and-convert loop for any ordered table of parameters; modular arithmetic for the azimuth.
* **C164** Solargis — the same loop lemma; fold over the pieces for the metadata, last piece of a key.
* **C165** MERRA-2 — induction over variables and datasets with the server as a function; header text by induction over its lines.
* **C166** ERA5 — case analysis on names; induction over the polls with the server's states as a function of the poll number.
* **C167** CAMS header — induction over the lines of the text; non-termination as None for every fuel.
* **C168** CAMS metadata — induction over the keys with an invariant on lookups.
* **C169** CAMS time stamps — case analysis on label and time step, calendar arithmetic for months.
* **C170** CAMS energy, power, requests — map equalities; text equality of the request.
* **C171** csv header lines — csv.reader as a state machine over characters; induction over fields (each as it is or quoted) and over the text.
* **C172** `read_nsrdb_psm4` — the text is composed of three csv rows and a rest; the csv parser of pandas is an argument.
* **C173** NSRDB requests — dictionary equalities, lookup in the request.
* **C174** ACIS grids — invariant of the renaming loop over keys, cellwise relation for missing values.
* **C175** ACIS stations — cellwise relation; the altitude in feet refuted against the station data.
* **C176** SolarAnywhere files — the line as fields and pieces, induction over pieces.
* **C177** SolarAnywhere times and polling — case analysis; induction over requests with an arbitrary clock.
* **C178** SolarAnywhere answer — lookups.
* **C179** Meteonorm request — lookups, digits of dates; two refutations.
* **C180** Meteonorm answer — list equalities, lookups.
* **C181** ghi_from_poa_driesse_2024 — loop invariant of the bisection (sign change, width halves), intermediate value theorem, the Perez-Driesse model on a horizontal plane; one refutation.
* **C182** named configurations of ModelChain — keyword lookup lemmas, C50 for the outcome; one refutation.
* **C183** get_extra_radiation at times and days — Gregorian calendar lemmas (the year of an ordinal), rounding to microseconds; one refutation.
* **C184** PyEphem wrappers and calc_time — the library and brentq are arguments with documented contracts; rounding of dates, induction over the times.
* **C185** gti_dirint in front of the plane — the loop invariant of C14 with the concrete DISC, DIRINT and transposition; the trace of guesses as a relation; a bright time never gets DNI (induction over the iterations); when the warning about convergence is given.
* **C186** gti_dirint behind the plane — half-day averages as a relation over the times; algebra of the isotropic closure.
* **C187** pvfactors_timeseries — the engine is an argument; np.full_like as broadcasting and casting of arrays.
* **C188** table of retrieve_sam — texts as in C147 (words), brackets as a decomposition of the text, transposition by names.
* **C189** read_crn — from the texts of pandas' fixed-width reader; a table of columns, kinds and marks; times by C150.
* **C190** read_midc — unique matching of fields closed by a mark (Base/Strptime); raw files by C150; zone labels and renaming as relations.
* **C191** localize_to_utc — a zone as a list of offset changes; datetimes by PEP 495 fold=0, indexes by pandas tz_localize; specification: the set of instants at which the clocks show a time.
* **C192** get_reference_spectra — the csv table as argument; interpolation as a relation between samples and values; iff for results and errors.
* **C193** get_example_spectral_response — scipy's spline as argument, with the contract that it meets its points.
* **C194** shapes of the Bishop solvers — shapes as lists of nat; numpy broadcasting as a relation; first maximal shape by induction.
* **C195** chandrupatla brackets — shapes as in C194, the integer cast of np.full_like by truncation.
* **C196** clear-sky models on integer arrays — storing a float in an integer array as truncation; compared with the published models of C97.
* **C197** times in the requests of get_era5 and get_merra2 — calendar arithmetic of Base/Calendar.v; the text determined by the UTC date and time.
* **C198** days asked for by get_nasa_power, get_cams and get_solargis — as C197; the date on the clocks compared with the date in UTC through instants.
* **C199** request of get_pvgis_hourly — the parameters as a relation between names and values; distinct names.
* **C200** requests of get_pvgis_tmy and get_pvgis_horizon — as C199.
* **C201** requests of get_solcast_* — keyword arguments as a list of names and values without the named ones; iff for the TypeError of a name given twice.

## 5. What is modelled and what is not

Modelled (all definitions cite lines): `albedo.py`, `atmosphere.py`, `clearsky.py`, `iam.py`, `inverter.py`, `irradiance.py`,
`pvarray.py`, `solarposition.py` (PyEphem and the compiled C SPA as oracles), `spa.py` (numpy and threaded numba versions), `location.py`, `scaling.py` (scipy's fmin as an argument),
`modelchain.py` (inference, setters, run methods, result state), `pvsystem.py` (PVSystem, Array, mounts, functions),
`shading.py`, `singlediode.py`, `snow.py`, `soiling.py`, `spectrum/mismatch.py`, `spectrum/irradiance.py`
(average_photon_energy), `_deprecation.py` (without docstrings), `iotools/panond.py`, `iotools/tmy.py` and `iotools/epw.py` (rows and header line, not pandas' csv parsing and column renaming), `iotools/srml.py`, `surfrad.py`, `solrad.py`, `crn.py`, `midc.py` (site data, SRML columns, downloads, whole read_crn and read_midc after pandas' parser) and `bsrn.py` (header, records, tables, downloads; not records without lines and the column-wise concat), `pvgis.py` (hourly and TMY csv, time zone, formats, horizon; requests; not JSON and short rows), `nasa_power.py`, `solcast.py`, `solargis.py`, `merra2.py`, `era5.py` (names, units, metadata, polling, times in requests; not other requests, JSON/XML and time parsing), `sodapro.py` (header, metadata, time stamps, units, request; not the csv parser and server errors), `psm4.py`, `acis.py`, `solaranywhere.py`, `meteonorm.py` (header lines, metadata, names, missing values, time stamps, request parameters, polling; not requests, JSON and pandas' csv parser), not pandas' parsing, `spectrum/response.py` (sr_to_qe, qe_to_sr), `spectrum/spectrl2.py`, `temperature.py`, `tools.py`, `tracking.py`,
`transformer.py`, `bifacial/utils.py`, `bifacial/infinite_sheds.py`, `bifacial/ants2d.py`, `bifacial/loss_models.py`, `bifacial/pvfactors.py` (engine as an argument),
`irradiance.ghi_from_poa_driesse_2024` (with scipy's bisect, transcribed from scipy's documented C code, as part of the model), `ivtools/utils.py`, `ivtools/sde.py`, `ivtools/sdm/` (statsmodels' robust regression, scipy's solvers, numpy's lstsq and the SAM module as arguments with
the contracts of `Spec/IvSpec.v`; statsmodels' add_constant skips its column when one is already constant, as modelled by `add_constant`).

Arguments of the model (external): scipy root finders and optimisers, `scipy.special.erf`, scipy interpolators, the HDF5 Linke
turbidity table, csv databases, plotting, physical constants where marked, the user's own callables.

Not modelled: `iotools` other than listed above (file and web readers),
pandas index alignment and broadcasting (except as series
lists), warnings, floating-point rounding and overflow (except `overflow` in the Lambert W argument).

Libraries: the standard library, and Coquelicot in `Proofs/{Passias,Diode*,LambertP,Bif*}` and
`Props/{PShading,PDiode,PBifacial}` (definitions and lemmas only; Coquelicot has no axioms beyond the standard library's).
Axioms printed: `functional_extensionality_dep`, `sig_not_dec`, `sig_forall_dec`, and `classic` where Coquelicot is used.

Tables (Perez, DIRINT, spectral, IAM, temperature parameter sets, clear-sky detection limits) are transcribed from the source by
`tools/gen_tables.py` and `tools/gen_spa.py`; the theorems about them either hold for every table or compare with an independent transcription of
the documentation (`Spec/DocTables.v`).

## 6. Findings (stated as theorems about the code as it is)

* C04 klucher returns more than dhi on a horizontal plane for partly clear skies.
* C22 `shaded_fraction1d` is the geometric shaded fraction only under the stated proviso (neighbouring rows on the sun side).
* C27 the PVWatts inverter's output is not monotone just above zero load.
* C34 golden-section accuracy is 2.12 atol, not atol; it never returns for atol <= 0.
* C37 `iam.physical` exceeds 1 for refractive indices above 2 + sqrt 3.
* C44 pvsyst shunt resistance at the reference irradiance is not R_sh_ref.
* C50 'singlediode' is an accepted dc_model name that selects nothing; ac_model accepts substrings of 'adr'; the temperature setter assigns before it checks; an inferred dc model may fail validation.
* C51/C52 stale singleton results raise AttributeError; 'adr' with a one-element list raises TypeError.
* C59 daily data give ZeroDivisionError.  C62 convert physical to physical raises UnboundLocalError.
* C71 sapm v_mp/p_mp are nan in the dark for C2 <= 0.  C72 caballero/polo module names are case sensitive.
* C76/C77 bishop88 is nan below the breakdown voltage and its breakdown gradient is not the derivative.
* C80 the chandrupatla bracket ignores NsVbi.  C82 i_from_v is nan when its exponential overflows.
* C87 the default number of rows and zenith limit of `_unshaded_ground_fraction` report fully shaded ground as partly lit.
* C90 the shaded fraction is 0 (the comment says 1) when the sun is behind the array.
* C95 Ineichen dhi is negative below turbidity ln 2.  C97 haurwitz maps nan to 0.  C98 bird dni exceeds the extraterrestrial irradiance beyond airmass 29.3.
* C99 the alpha returned by detect_clearsky is fitted after the pass that produced the mask.
* C103 at hour angle 0 the analytical azimuth is always south; past midnight it is mirrored.  C105 hour_angle is 15 degrees off after a clock change.
* C106 the ephemeris day count is one day off in 1900 and earlier and from 2101.  C107 method='nrel_c' passes the temperature as altitude.
* C109 the SPA refraction correction is nan at elevation -5.11 degrees and negative very near the zenith.  C112 an event in the neighbouring UTC day is refined with the sun of the wrapped fraction of the day (a day off).
* C113 switching between numba and numpy deletes the user's PVLIB_USE_NUMBA; atmos_refract=0 is replaced by 0.5667.
* C114 unsupported time zones raise TypeError, not the documented ValueError.  C116 Location.get_airmass refuses 'gueymard2003'; get_clearsky(pressure=...) does not reach the airmass of the ineichen model.
* C121 the second derivative of `_numdiff` is not a derivative (tests compare with data computed by the same formula; the callers do not use it).  C122 Schumaker spline pieces after an inserted knot miss the next data point.
* C124 no exponential portion: ZeroDivisionError instead of RuntimeError; `vlim` strict.  C125 `betaiph` omits the series resistance in its exponent.
* C129 `_calc_theta_phi_exact`: in the overflow branch iterate and logarithm are one array; W is too small by more than 9.8 (comment: 8 digits).  C131 a curve with Rs = Rsh = 0 passes the filter that drops "non-positive" values.
* C132 the filter and refinement of `_initial_iv_params` are inside the loop over the curves; its first photocurrent uses expm1(isc / nNsVth) without the series resistance.
* C133 the De Soto EgRef regression has a sign error (silicon: 1.311 eV instead of 1.121 eV; the test pins 1.3112547).  A regressor that is constant and not zero makes the regression lose its intercept (IndexError); `np.logical_and(a, b, c)` takes its third argument as output.
* C138 an aerosol asymmetry factor very near 1 gives negative diffuse irradiance.
* C140 `fit_sandia` returns nan parameters for an inverter with a linear power curve (0/0 in the quadratic formula) and nan C2 for one without self-consumption.
* C143 a blank line after a section header in a .PAN/.OND file raises IndexError or moves the section's entries into the previous section; the last entry of a file without an End line is lost; C144 text after a second `=` is dropped.
* C145 `read_tmy3(coerce_year=...)` puts the last row into the following year whatever its date (a file with hours 0..23 ends a year late), and with a leap year labels the midnight after February 28 a day late; C147 the last TMY2 column is named `LastSnowfallUncertaint`, and the ten present-weather digits are read as one number (leading zeros lost).
* C151 `read_srml` refuses half-hour files that start a day and every file that starts with the last interval of an hour (the interval is a difference of HHMM numbers); C153 `get_surfrad` ignores `map_variables`.
* C154 the check for a missing record LR0004 in `_parse_bsrn` is unreachable (iteration over a file yields no empty line): such a file fails with `int('')` instead of the intended message.
* C158 `_coerce_and_roll_tmy` with a leap `coerce_year` and a positive offset: the first hours of March 1 hold data of February 28, labelled a day late.
* C161 `get_pvgis_tmy` with an unknown `outputformat` (not 'basic') fails with AttributeError, TypeError or UnboundLocalError instead of the ValueError of `read_pvgis_tmy`.
* C163 `get_solcast_historic` sends the API key as a query parameter as well as in the header; the other three functions do not.
* C164 Solargis: 'GIc' in NA_9_COLUMNS is a typo of 'GTIc' (and the `_C` columns are missing): -9 is returned as clear-sky irradiance in the plane of array; 'PT30' in the resolution table is a typo of 'PT30M'.
* C165 MERRA-2: TQV (kg/m2) is renamed precipitable_water without the conversion to cm NASA POWER, Solcast and Solargis do; fewer datasets than variables drop variables silently; the documented ValueError for different years is never raised.
* C167 `read_cams` never returns for a file without a line starting with '# Observation period' (readline returns '' for ever).
* C169 `read_cams` with an unknown `label` leaves running numbers as index, or fails with AttributeError for days and months, instead of a ValueError.
* C175 `get_acis_available_stations` returns the altitude in feet (`get_acis_station_data` in metres).
* C176 `read_solaranywhere` fails with ValueError if a metadata value in the first line contains a colon.
* C179 Meteonorm: start and end in a time zone other than UTC are sent unconverted with the suffix Z; `albedo` of `get_meteonorm_tmy` is not sent.
* C181 `ghi_from_poa_driesse_2024` stops after 25 halvings: for xtol below ghi_extra / 2^25 the value need not be within xtol; empty arrays raise ValueError.
* C182 `with_pvwatts` does not look at the inverter's parameters: the AC model fails later with KeyError.
* C183 extraterrestrial radiation of a time with a zone belongs to its date in UTC: two times of one local day can have different values.
* C185 gti_dirint limits the zenith-corrected clearness index at 2, but the DIRINT bins end at 1: a brighter time gets NaN for DNI and DHI, whatever the iterations. Convergence is not tested after the last iteration, so the warning is also given when it converges there.
* C186 behind the plane the DIRINT coefficient is that of the time's own clearness index, not of the half-day average from which its beam is made; dhi is negative for little irradiance in the plane.
* C187 pvfactors_timeseries with integer solar zeniths cuts surface tilts and azimuths to whole degrees (np.full_like takes the type of its first argument).
* C188 ADR coefficients separated by commas, as a comment of the code describes them, are a ValueError.
* C189 the missing mark -99999 of CRX_VN is never replaced, as the column is read as text; a line of which an integer field alone is missing makes the whole file a ValueError.
* C191 localize_to_utc: a wall-clock time that is shown twice is an error in a naive index, while the same time as a naive datetime silently becomes the first of the two instants.
* C185 the warning of gti_dirint looks at the guesses before the last one: with max_iterations=1 it is always given, "0 points failed to converge" included.
* C194 a column and a row (shapes (3, 1) and (4,)), which numpy broadcasts together, are a ValueError for the newton method or give a guess without their common shape; with empty arrays the guess of a scalar is a scalar.
* C195 bishop88_mpp with method=chandrupatla and a photocurrent of an integer type cuts the upper end of the bracket to whole volts: for a single cell (Voc below 1 V) the bracket is [0, 0].  A scalar photocurrent with other parameters as arrays is a ValueError.
* C196 haurwitz with zeniths of an integer type cuts the irradiance to whole W/m2 (1035 instead of 1035.1 with the sun overhead); simplified_solis with integer optical depths and a scalar precipitable water cuts the water to whole centimetres in the diffuse irradiance only.
* C198 unlike get_era5 and get_merra2, get_nasa_power (which asks for data in UTC) and get_cams take the date from the clocks of the time zone of start and end: 2020-03-01 05:30+10:00 asks for 1 March, though it is 29 February in UTC.  C199 likewise the years of get_pvgis_hourly.
* C201 get_solcast_historic sends the API key in the address as well as in the header, unlike the other three.  A keyword format, which the Solcast API has, is a TypeError.
* C117 a time index with steps of a day or more loses whole days of the step.  C118 with a single site fmin starts at the minimum 0, the number of sites comes out as 0 and the result is nan.
