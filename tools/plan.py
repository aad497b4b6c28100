PLAN={
'C01':'model irradiance.aoi_projection on fl; spec: dot product of ENU unit vectors; trig identity + Cauchy-Schwarz.',
'C02':'model irradiance.aoi; acos o cos range; periodicity of sin/cos.',
'C03':'model get_sky_diffuse dispatch, get_total_irradiance, poa_components, beam_component; direct computation.',
'C04':'each transposition model at tilt 0, finite inputs in the stated ranges; algebra.',
'C05':'models return total and components; algebra with case split on the masks.',
'C06':'max(…,0) lemmas on fl; monotonicity of products for isotropic/klucher/reindl.',
'C07':'get_ground_diffuse incl. SURFACE_ALBEDOS lookup; cos range and monotonicity.',
'C08':'np.digitize modelled on the literal bin list; exhaustive bin theorem.',
'C09':'erbs, erbs_driesse, orgill_hollands, boland, louche on fl; algebra for each branch.',
'C10':'polynomial range proofs (monotonicity/interval arguments by hand, nra).',
'C11':'clip/min/max lemmas on fl.',
'C12':'complete_irradiance with option-valued arguments; dni() mask logic.',
'C13':'_dirint_bins/_dirint_coeffs binning on fl; table index ranges; coefficient table itself abstract of shape 6x6x7x5.',
'C14':'_gti_dirint_lt_90 loop as fuelled recursion over an arbitrary mismatch oracle; loop invariant.',
'C15':'asce/spencer formulas on R; bounds by |cos|,|sin|<=1 style estimates.',
'C16':'singleaxis rotation on fl; clip lemma.',
'C17':'rotation geometry on R; optimal rotation = argument of the projected sun vector (Cauchy-Schwarz in the plane).',
'C18':'backtracking correction and shaded_fraction1d on R; trig identity.',
'C19':'rotation matrices spec; acos/asin/atan2 case analysis.',
'C20':'plane/line geometry on R.',
'C21':'atan2 polar form.',
'C22':'clip lemmas; bounds.',
'C23':'atan geometry.',
'C24':'inverter.sandia on fl.','C25':'lists of inputs; permutation invariance.','C26':'inverter.adr on fl.',
'C27':'inverter.pvwatts on fl; piecewise monotone.','C28':'quadratic formula with sqrt.',
'C29':'series as list with time deltas; simulation between cumulative formulation and recurrence.',
'C30':'ceil spec.','C31':'12-month list, cyclic predecessor; clip.',
'C32':'series as list; simulation with recurrence.','C33':'erf as parameter with monotonicity hypotheses.',
'C34':'loop as recursion; bracket invariant; golden ratio contraction.',
'C35':'integer/real rounding; range proof.','C36':'instants as integers (microseconds).',
'C37':'Fresnel algebra; monotone trig.','C38':'decision logic.',
'C39':'formulas on fl; exponent positivity, monotone.','C40':'algebraic inverses.',
'C41':'list model of weighted moving average with NaN counting.','C42':'formula per model; NaN mask.',
'C43':'ln/exp inverses.','C44':'formulas at reference conditions.','C45':'record/assoc list model.',
'C46':'algebra; list product.','C47':'algebra; decision logic.','C48':'list model of _validate_per_array/_unwrap_single_value.',
'C49':'decision logic over key sets (strings).','C50':'string dispatch incl. substring operator.',
'C51':'state machine of ModelChain.results with oracles; frame lemma.',
'C52':'same state machine; relation between bare and wrapped runs.',
'C53':'same state machine.','C54':'same state machine with an evaluation trace.',
}
