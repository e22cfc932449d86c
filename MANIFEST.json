{
 "claims": [
  {
   "property": "C01",
   "status": "proved",
   "theorems": [
    "C01_role_exclusivity"
   ],
   "note": "every arithmetic, every std::sort"
  },
  {
   "property": "C02",
   "status": "proved",
   "theorems": [
    "C02_plan_symmetry"
   ],
   "note": "every arithmetic"
  },
  {
   "property": "C03",
   "status": "proved",
   "theorems": [
    "C03_plan_wellformed"
   ],
   "note": "every arithmetic"
  },
  {
   "property": "C04",
   "status": "proved",
   "theorems": [
    "C04_planning_total",
    "C04_sweep_iterations",
    "C04_exact_comparable",
    "C04_ieee"
   ],
   "note": "IEEE doubles: release builds, measured times neither negative nor NaN"
  },
  {
   "property": "C05",
   "status": "proved",
   "theorems": [
    "C05_transfer_bounds"
   ],
   "note": "exact arithmetic"
  },
  {
   "property": "C06",
   "status": "proved",
   "theorems": [
    "C06_sweep_equalises",
    "C06_plan_equalises"
   ],
   "note": "exact arithmetic"
  },
  {
   "property": "C08",
   "status": "proved",
   "theorems": [
    "C08_assertions_hold_exact",
    "C08_assertions_ieee_refuted"
   ],
   "note": "exact: holds; IEEE doubles: refuted with a witness"
  },
  {
   "property": "C09",
   "status": "proved",
   "theorems": [
    "C09_filter",
    "C09_equal_loads",
    "C09_imbalance_after_filter"
   ],
   "note": ""
  },
  {
   "property": "C10",
   "status": "proved",
   "theorems": [
    "C10_counts_greedy"
   ],
   "note": "every arithmetic"
  },
  {
   "property": "C11",
   "status": "proved",
   "theorems": [
    "C11_partition"
   ],
   "note": "every arithmetic"
  },
  {
   "property": "C12",
   "status": "proved",
   "theorems": [
    "C12_peak_not_raised"
   ],
   "note": "exact arithmetic"
  },
  {
   "property": "C13",
   "status": "proved",
   "theorems": [
    "C13_exchange"
   ],
   "note": "every plan of updateState, every schedule, every choice of eager messages"
  },
  {
   "property": "C14",
   "status": "proved",
   "theorems": [
    "C14_return_in_order"
   ],
   "note": "every arithmetic"
  },
  {
   "property": "C18",
   "status": "proved",
   "theorems": [
    "C18_problems",
    "C18_solutions",
    "C18_loads"
   ],
   "note": "token-level model of OpenFOAM binary streams"
  },
  {
   "property": "C15",
   "status": "proved",
   "theorems": [
    "C15_same_results",
    "C15_balanced_returns",
    "C15_exact",
    "C15_pyJac_same_results",
    "C15_ieee"
   ],
   "note": "for cell solvers whose result does not depend on earlier calls"
  },
  {
   "property": "C16",
   "status": "proved",
   "theorems": [
    "C16_runs_agree",
    "C16_exact",
    "C16_ieee"
   ],
   "note": ""
  },
  {
   "property": "C17",
   "status": "proved",
   "theorems": [
    "C17_work_distribution",
    "C17_solved_once"
   ],
   "note": ""
  },
  {
   "property": "C19",
   "status": "proved",
   "theorems": [
    "C19_no_undefined_behaviour",
    "C19_pyJac_no_undefined_behaviour",
    "C19_constructed_mapper",
    "C19_call_returns",
    "C19_ieee_call_returns",
    "C19_ieee_no_undefined_behaviour",
    "C19_times_stay_nonnegative"
   ],
   "note": ""
  },
  {
   "property": "C20",
   "status": "proved",
   "theorems": [
    "C20_cells"
   ],
   "note": ""
  },
  {
   "property": "C21",
   "status": "proved",
   "theorems": [
    "C21_mapping_safe",
    "C21_labels"
   ],
   "note": ""
  },
  {
   "property": "C22",
   "status": "proved",
   "theorems": [
    "C22_every_cell",
    "C22_shapes_kept"
   ],
   "note": ""
  },
  {
   "property": "C23",
   "status": "proved",
   "theorems": [
    "C23_inactive_mapping"
   ],
   "note": ""
  },
  {
   "property": "C24",
   "status": "proved",
   "theorems": [
    "C24_at_most_doubled",
    "C24_otherwise_field_solve"
   ],
   "note": "every arithmetic"
  },
  {
   "property": "C25",
   "status": "proved",
   "theorems": [
    "C25_attained",
    "C25_lower_bound"
   ],
   "note": "attained: every arithmetic; lower bound: exact arithmetic"
  },
  {
   "property": "C26",
   "status": "proved",
   "theorems": [
    "C26_lower_bound_refuted",
    "C26_without_mapping"
   ],
   "note": "with mapping the claim is false of the code: refuted with a witness; without mapping it holds (exact arithmetic)"
  },
  {
   "property": "C27",
   "status": "proved",
   "theorems": [
    "C27_capped"
   ],
   "note": "every arithmetic"
  },
  {
   "property": "C28",
   "status": "proved",
   "theorems": [
    "C28_rate"
   ],
   "note": "every arithmetic"
  },
  {
   "property": "C29",
   "status": "proved",
   "theorems": [
    "C29_chemistry_off"
   ],
   "note": ""
  },
  {
   "property": "C30",
   "status": "proved",
   "theorems": [
    "C30_covers",
    "C30_loop",
    "C30_one_call",
    "C30_ends",
    "C30_no_progress",
    "C30_ieee_self_difference"
   ],
   "note": ""
  },
  {
   "property": "C31",
   "status": "proved",
   "theorems": [
    "C31_normalised_and_affine"
   ],
   "note": "exact arithmetic"
  },
  {
   "property": "C32",
   "status": "proved",
   "theorems": [
    "C32_bilger_formula",
    "C32_conserved"
   ],
   "note": "exact arithmetic"
  },
  {
   "property": "C33",
   "status": "proved",
   "theorems": [
    "C33_streams_checked",
    "C33_nan_rejected_refuted"
   ],
   "note": "exact arithmetic; in IEEE doubles NaN fractions are accepted (refuted)"
  },
  {
   "property": "C34",
   "status": "proved",
   "theorems": [
    "C34_degenerate_diagnosed_refuted"
   ],
   "note": "the claim is false of the code: refuted with a witness"
  },
  {
   "property": "C52",
   "status": "proved",
   "theorems": [
    "C52_serial_plan",
    "C52_serial_solve",
    "C52_ieee_plan"
   ],
   "note": "every cell solver, every outcome"
  },
  {
   "property": "C39",
   "status": "proved",
   "theorems": [
    "C39_returns_at_end",
    "C39_fatal_otherwise",
    "C39_arrived_forward",
    "C39_arrived_backward"
   ],
   "note": "every arithmetic; the meaning of arrived in exact arithmetic"
  },
  {
   "property": "C40",
   "status": "proved",
   "theorems": [
    "C40_no_overshoot"
   ],
   "note": "exact arithmetic"
  },
  {
   "property": "C54",
   "status": "proved",
   "theorems": [
    "C54_norm"
   ],
   "note": "exact arithmetic"
  },
  {
   "property": "C41",
   "status": "proved",
   "theorems": [
    "C41_trial_step_refuted"
   ],
   "note": "the claim is false of the code: refuted with a witness that also overshoots the end of the interval"
  },
  {
   "property": "C42",
   "status": "proved",
   "theorems": [
    "C42_in_bounds",
    "C42_order_target",
    "C42_tolerances"
   ],
   "note": "every arithmetic, every memory of the solver object, every LAPACK"
  },
  {
   "property": "C43",
   "status": "proved",
   "theorems": [
    "C43_memoryless",
    "C43_zero_relTol_refuted"
   ],
   "note": "every arithmetic; without the proviso on the tolerances refuted with a witness"
  },
  {
   "property": "C44",
   "status": "proved",
   "theorems": [
    "C44_reads_initialised",
    "C44_zero_relTol_refuted"
   ],
   "note": "every arithmetic, for tolerances for which the Jacobian is evaluated (positive relTol); with relTol 0 refuted with a witness"
  },
  {
   "property": "C45",
   "status": "proved",
   "theorems": [
    "C45_accepted_within_tolerance",
    "C45_nan_accepted_refuted"
   ],
   "note": "exact arithmetic; in IEEE doubles a NaN estimate is accepted (refuted)"
  },
  {
   "property": "C46",
   "status": "proved",
   "theorems": [
    "C46_every_step"
   ],
   "note": "every arithmetic"
  },
  {
   "property": "C47",
   "status": "proved",
   "theorems": [
    "C47_substeps_plausible",
    "C47_never_returns",
    "C47_accepted_temperature_refuted"
   ],
   "note": "restated; the original claim about accepted states is refuted with a witness"
  },
  {
   "property": "C48",
   "status": "proved",
   "theorems": [
    "C48_implicit_euler"
   ],
   "note": "exact arithmetic, LAPACK assumed to solve regular systems"
  },
  {
   "property": "C49",
   "status": "proved",
   "theorems": [
    "C49_polynomials"
   ],
   "note": "exact arithmetic"
  },
  {
   "property": "C35",
   "status": "proved",
   "theorems": [
    "C35_rates",
    "C35_normalised"
   ],
   "note": "what is handed over: every arithmetic; sum 1 and non-negativity: exact arithmetic"
  },
  {
   "property": "C36",
   "status": "proved",
   "theorems": [
    "C36_not_negative",
    "C36_normalised"
   ],
   "note": "every integrator; the sum in exact arithmetic"
  },
  {
   "property": "C37",
   "status": "proved",
   "theorems": [
    "C37_last_nonnegative_refuted"
   ],
   "note": "the claim is false of the code: refuted with a witness run of the whole stack"
  },
  {
   "property": "C38",
   "status": "proved",
   "theorems": [
    "C38_pressure",
    "C38_elimination",
    "C38_pressure_double"
   ],
   "note": "exact arithmetic; and the very same double unless the state ceases to be finite; LAPACK assumed to solve a decoupled last equation on its own"
  },
  {
   "property": "C50",
   "status": "proved",
   "theorems": [
    "C50_heat_release",
    "C50_accumulated",
    "C50_chemistry_off"
   ],
   "note": "formula in exact arithmetic, order of accumulation in every arithmetic"
  },
  {
   "property": "C53",
   "status": "proved",
   "theorems": [
    "C53_rates_cancel",
    "C53_total_rate"
   ],
   "note": "exact arithmetic, every integrator"
  },
  {
   "property": "C55",
   "status": "proved",
   "theorems": [
    "C55_jacobian"
   ],
   "note": "every arithmetic"
  },
  {
   "property": "C56",
   "status": "proved",
   "theorems": [
    "C56_diagnosed",
    "C56_overflow_refuted"
   ],
   "note": "diagnosed except when chemistry is on and the library has more species (refuted: written out of bounds)"
  },
  {
   "property": "C07",
   "status": "proved",
   "theorems": [
    "C07_ieee_equalises",
    "C07_tiny_loads_refuted"
   ],
   "note": "IEEE doubles, all rounding errors; mean at least 1e-6 s (refuted without)"
  },
  {
   "property": "C51",
   "status": "proved",
   "theorems": [
    "C51_min",
    "C51_max",
    "C51_mean",
    "C51_mean_ieee",
    "C51_mean_above_max_refuted",
    "C51_rank_index"
   ],
   "note": "min/max/index in every arithmetic, mean exact and in doubles"
  },
  {
   "property": "C57",
   "status": "proved",
   "theorems": [
    "C57_first_integrals"
   ],
   "note": "exact arithmetic; linear systems assumed regular and solved by LAPACK"
  },
  {
   "property": "C58",
   "status": "proved",
   "theorems": [
    "C58_elements",
    "C58_cut_off_refuted"
   ],
   "note": "exact arithmetic; without negative mass fractions (refuted otherwise)"
  },
  {
   "property": "C59",
   "status": "proved",
   "theorems": [
    "C59_rhs",
    "C59_functions"
   ],
   "note": "every arithmetic and mathematics library, all three mechanisms"
  },
  {
   "property": "C60",
   "status": "proved",
   "theorems": [
    "C60_production"
   ],
   "note": "real arithmetic"
  },
  {
   "property": "C61",
   "status": "proved",
   "theorems": [
    "C61_elements",
    "C61_elements_rates",
    "C61_mass"
   ],
   "note": "real arithmetic; mass up to the rounding of the weights in the sources"
  },
  {
   "property": "C62",
   "status": "proved",
   "theorems": [
    "C62_mass_action"
   ],
   "note": "real arithmetic; the values of the rate constants are in C72"
  },
  {
   "property": "C63",
   "status": "proved",
   "theorems": [
    "C63_third_bodies"
   ],
   "note": "real arithmetic; the values of broadening factor and rate constants are in C74"
  },
  {
   "property": "C64",
   "status": "proved",
   "theorems": [
    "C64_concentrations",
    "C64_not_negative"
   ],
   "note": "real arithmetic"
  },
  {
   "property": "C65",
   "status": "proved",
   "theorems": [
    "C65_enthalpy"
   ],
   "note": "real arithmetic"
  },
  {
   "property": "C66",
   "status": "proved",
   "theorems": [
    "C66_quasi_positive"
   ],
   "note": "real arithmetic, any exp and pow with positive values"
  },
  {
   "property": "C67",
   "status": "proved",
   "theorems": [
    "C67_data"
   ],
   "note": "data of the three mechanisms"
  },
  {
   "property": "C68",
   "status": "proved",
   "theorems": [
    "C68_conversions"
   ],
   "note": "real arithmetic"
  },
  {
   "property": "C69",
   "status": "proved",
   "theorems": [
    "C69_masks"
   ],
   "note": "any element type"
  },
  {
   "property": "C70",
   "status": "proved",
   "theorems": [
    "C70_heat_capacity",
    "C70_enthalpy",
    "C70_slope"
   ],
   "note": "real arithmetic; up to 4e-15 of the sum of the absolute values of the terms"
  },
  {
   "property": "C71",
   "status": "proved",
   "theorems": [
    "C71_species",
    "C71_mixture",
    "C71_temperature"
   ],
   "note": "real arithmetic, 200 to 5000 K"
  },
  {
   "property": "C72",
   "status": "proved",
   "theorems": [
    "C72_rate_constants"
   ],
   "note": "real arithmetic; relative errors of about 1e-14"
  },
  {
   "property": "C74",
   "status": "proved",
   "theorems": [
    "C74_falloff"
   ],
   "note": "real arithmetic; the cut-off of the logarithms at 1e-300 is part of the formula"
  },
  {
   "property": "C73",
   "status": "proved",
   "theorems": [
    "C73_direction",
    "C73_gibbs"
   ],
   "note": "real arithmetic, positive concentrations; up to the rounding of the constants"
  },
  {
   "property": "C75",
   "status": "proved",
   "theorems": [
    "C75_reactions",
    "C75_species"
   ],
   "note": "real arithmetic; reactions without fall-off; the first element (temperature equation) is not part of this claim"
  },
  {
   "property": "C76",
   "status": "proved",
   "theorems": [
    "C76_falloff"
   ],
   "note": "real arithmetic; the derivative is that of the factor with parameters within rounding of those of chem.cti"
  },
  {
   "property": "C77",
   "status": "proved",
   "theorems": [
    "C77_temperature",
    "C77_column",
    "C77_gri30_refuted"
   ],
   "note": "real arithmetic; drm19 and yao; for gri30 false of the code: refuted with a witness"
  },
  {
   "property": "C78",
   "status": "proved",
   "theorems": [
    "C78_columns"
   ],
   "note": "real arithmetic; drm19; species in no fall-off reaction, or only in such that cannot run"
  },
  {
   "property": "C79",
   "status": "proved",
   "theorems": [
    "C79_reactions"
   ],
   "note": "real arithmetic; drm19; for fall-off reactions the derivative is that of the factor with parameters within rounding of those of chem.cti, and the difference between that factor and the modification of get_rxn_pres_mod enters as an explicit term"
  },
  {
   "property": "C80",
   "status": "proved",
   "theorems": [
    "C80_temperature",
    "C80_column"
   ],
   "note": "real arithmetic; drm19"
  },
  {
   "property": "C81",
   "status": "proved",
   "theorems": [
    "C81_column",
    "C81_whole",
    "C81_temperature",
    "C81_overwrites_refuted"
   ],
   "note": "any arithmetic; whole array for drm19, temperature column for gri30 and yao; that eval_jacob overwrites all of its output is refuted (row of argon)"
  },
  {
   "property": "C82",
   "status": "proved",
   "theorems": [
    "C82_rhs",
    "C82_jacobian",
    "C82_elements",
    "C82_column",
    "C82_temperature"
   ],
   "note": "C82_rhs, C82_jacobian: any arithmetic; the others real arithmetic; the Jacobian for drm19, columns where no fall-off reaction can run"
  },
  {
   "property": "C83",
   "status": "proved",
   "theorems": [
    "C83_rates",
    "C83_scaling",
    "C83_derivative",
    "C83_column_refuted",
    "C83_linear"
   ],
   "note": "C83_rates: any arithmetic; the others real arithmetic; derivative without fall-off reactions; that jacobian has the derivatives with respect to the pressure is refuted, its linear systems do not depend on them"
  },
  {
   "property": "C84",
   "status": "proved",
   "theorems": [
    "C84_returned",
    "C84_handed",
    "C84_rates"
   ],
   "note": "IEEE doubles; for outcomes of the integrator with finite mass fractions"
  },
  {
   "property": "C85",
   "status": "proved",
   "theorems": [
    "C85_transfers",
    "C85_large",
    "C85_peak_not_raised"
   ],
   "note": "IEEE doubles; the bounds of C05, C09 and C12 with rounding errors"
  },
  {
   "property": "C86",
   "status": "proved",
   "theorems": [
    "C86_defined",
    "C86_state",
    "C86_pressure_density",
    "C86_mayer",
    "C86_positive",
    "C86_slope"
   ],
   "note": "C86_defined, C86_state: any arithmetic; the others real arithmetic"
  },
  {
   "property": "C87",
   "status": "proved",
   "theorems": [
    "C87_smallest",
    "C87_smallest_unmapped",
    "C87_substeps"
   ],
   "note": "IEEE doubles; C25, C26 and C30 with NaN and rounding errors"
  },
  {
   "property": "C88",
   "status": "proved",
   "theorems": [
    "C88_error",
    "C88_streams",
    "C88_decision"
   ],
   "note": "IEEE doubles; C31, C32 and the mapping decision with rounding errors"
  },
  {
   "property": "C89",
   "status": "proved",
   "theorems": [
    "C89_end_test",
    "C89_cut_test",
    "C89_end",
    "C89_not_short"
   ],
   "note": "IEEE doubles; C39 and C40 with rounding errors; seulex itself may exceed its trial step (C41)"
  },
  {
   "property": "C90",
   "status": "proved",
   "theorems": [
    "C90_heat_release",
    "C90_no_cancellation"
   ],
   "note": "IEEE doubles; C50 with rounding errors; the enthalpies are taken as the doubles the library returns"
  },
  {
   "property": "C91",
   "status": "proved",
   "theorems": [
    "C91_norm",
    "C91_nan_lost_refuted",
    "C91_estimate",
    "C91_accepted"
   ],
   "note": "IEEE doubles; C54 and C45 with rounding errors; sqrt correctly rounded as IEEE 754 requires; that a NaN error always shows is refuted"
  },
  {
   "property": "C92",
   "status": "proved",
   "theorems": [
    "C92_counts"
   ],
   "note": "IEEE doubles; C10 with rounding errors"
  }
 ]
}