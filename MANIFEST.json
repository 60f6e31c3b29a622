{
 "claims": [
  {
   "property": "C01",
   "status": "proved",
   "theorems": [
    "C01_uniform",
    "C01_uniform_zero",
    "C01_chebyshev",
    "C01_legendre",
    "C01_lobatto",
    "C01_lobatto_zero",
    "C01_radial",
    "C01_angular",
    "C01_copy_move"
   ],
   "note": "Any scalar type. Zero-point uniform and Lobatto rules are undefined behaviour (proved)."
  },
  {
   "property": "C02",
   "status": "proved",
   "theorems": [
    "C02_shape",
    "C02_textbook",
    "C02_affine",
    "C02_error",
    "C02_converges",
    "C02_zero_points",
    "C02_one_point"
   ],
   "note": "Exact arithmetic for n >= 2 and lo < up (continuity and derivatives two-sided at the end points). 0 points: undefined behaviour; 1 point: NaN node in binary64 for every libm."
  },
  {
   "property": "C03",
   "status": "proved",
   "theorems": [
    "C03_exact",
    "C03_shape"
   ],
   "note": "Exact arithmetic; improper Riemann integral."
  },
  {
   "property": "C04",
   "status": "proved",
   "theorems": [
    "C04_exact",
    "C04_shape",
    "C04_converges"
   ],
   "note": "Exact arithmetic; also convergence to the plain integral for continuous integrands."
  },
  {
   "property": "C05",
   "status": "proved",
   "theorems": [
    "C05_exact",
    "C05_shape"
   ],
   "note": "Exact arithmetic; improper Riemann integral."
  },
  {
   "property": "C06",
   "status": "proved",
   "theorems": [
    "C06_shape",
    "C06_weights",
    "C06_trapezoid",
    "C06_substitution",
    "C06_converges",
    "C06_constants",
    "C06_odd",
    "C06_one_refuted"
   ],
   "note": "Exact arithmetic; also convergence for continuous integrands. With one point the total weight is 8/3, not 2 (C06_one_refuted, outside the stated range)."
  },
  {
   "property": "C07",
   "status": "proved",
   "theorems": [
    "C07_polynomial",
    "C07_evaluation",
    "C07_equation",
    "C07_bound",
    "C07_endpoint_refuted"
   ],
   "note": "Exact arithmetic: the evaluation is the unique Legendre polynomial (degree <= n, value 1 at 1, orthogonal to lower degrees), its derivative away from +-1 and the previous polynomial; differential equation and bound. C07_endpoint_refuted: in binary64 the derivative is NaN at x = 1."
  },
  {
   "property": "C08",
   "status": "proved",
   "theorems": [
    "C08_succeeds",
    "C08_shape",
    "C08_gauss",
    "C08_close",
    "C08_error",
    "C08_polynomials",
    "C08_convergence"
   ],
   "note": "Exact arithmetic: never throws, for any n; the rule is within 2^-52 (nodes) of the unique rule exact to degree 2n-1, whose nodes are the zeros of P_n; error bound for integrands. Any arithmetic: a rule or the exception."
  },
  {
   "property": "C09",
   "status": "proved",
   "theorems": [
    "C09_succeeds",
    "C09_shape",
    "C09_lobatto",
    "C09_close",
    "C09_error",
    "C09_polynomials",
    "C09_convergence",
    "C09_small"
   ],
   "note": "Exact arithmetic: never throws for n >= 2; the rule is within 2^-52 (nodes) of the unique closed rule exact to degree 2n-3; error bound. Any arithmetic: a rule or the exception; n = 0 is undefined behaviour."
  },
  {
   "property": "C10",
   "status": "proved",
   "theorems": [
    "C10_change_of_variable",
    "C10_left_infinite_refuted",
    "C10_exactness_transfers"
   ],
   "note": "Exact arithmetic, all bound kinds. Finding: for (-inf, up) the Jacobian has the wrong sign, so positive weights become negative (C10_left_infinite_refuted); all other kinds proved."
  },
  {
   "property": "C11",
   "status": "proved",
   "theorems": [
    "C11_bijection",
    "C11_jacobian",
    "C11_scaling"
   ],
   "note": "Exact arithmetic; R > 0, MHL exponent >= 1, Treutler-Ahlrichs exponent >= 0."
  },
  {
   "property": "C12",
   "status": "proved",
   "theorems": [
    "C12_shape",
    "C12_total",
    "C12_nodes",
    "C12_change_of_variable",
    "C12_converges"
   ],
   "note": "Exact arithmetic, all n; 'finite' has no content over the reals. Also convergence to the half-line integral for continuous integrands that decay under the map."
  },
  {
   "property": "C13",
   "status": "proved",
   "theorems": [
    "C13_compare_iff",
    "C13_compare_exact",
    "C13_compare_sym",
    "C13_compare_trans",
    "C13_compare_refl",
    "C13_clone",
    "C13_cast"
   ],
   "note": "Any scalar type for which == is symmetric/transitive; exact statement over the reals."
  },
  {
   "property": "C14",
   "status": "proved",
   "theorems": [
    "C14_lookups_inverse",
    "C14_lookups_range",
    "C14_lookups_monotone",
    "C14_sizes_feasible",
    "C14_octahedral_sizes",
    "C14_womersley_orders",
    "C14_womersley_sizes"
   ],
   "note": "Full tables, all integers."
  },
  {
   "property": "C15",
   "status": "proved",
   "theorems": [
    "C15_next_order",
    "C15_next_idempotent",
    "C15_next_monotone",
    "C15_next_fixed_iff"
   ],
   "note": "All integers."
  },
  {
   "property": "C16",
   "status": "proved",
   "theorems": [
    "C16_dispatch",
    "C16_supported",
    "C16_unsupported_silent",
    "C16_unsupported_fails_refuted"
   ],
   "note": "Supported half proved; the 'fails otherwise' half is refuted: unsupported sizes silently give an all-zero grid."
  },
  {
   "property": "C17",
   "status": "partial",
   "theorems": [
    "C17_lebedev",
    "C17_delley",
    "C17_ahrens_beylkin_partial",
    "C17_womersley_partial",
    "C17_polynomials",
    "C17_norm",
    "C17_weight_sum",
    "C17_weight_signs",
    "C17_positive_refuted",
    "C17_ahrens_beylkin_552_refuted"
   ],
   "note": "Decimal literals as exact reals, every combination of spherical harmonics up to the advertised order (they span the polynomials). Lebedev-Laikov and Delley: every size. Ahrens-Beylkin: exactness up to 612 points, points on the sphere for all. Womersley: exactness up to 222 points, shape up to 513. Findings: the 552-point Ahrens-Beylkin grid is wrong (weights sum to 4 pi - 0.46); three Lebedev-Laikov grids and one Ahrens-Beylkin grid have negative weights."
  },
  {
   "property": "C18",
   "status": "proved",
   "theorems": [
    "C18_product",
    "C18_iterated_sum",
    "C18_separable"
   ],
   "note": ""
  },
  {
   "property": "C19",
   "status": "proved",
   "theorems": [
    "C19_subquad",
    "C19_accepted_iff",
    "C19_concat",
    "C19_whole",
    "C19_unchecked"
   ],
   "note": ""
  },
  {
   "property": "C20",
   "status": "proved",
   "theorems": [
    "C20_spherical",
    "C20_iterated_sum",
    "C20_separable",
    "C20_radius"
   ],
   "note": ""
  },
  {
   "property": "C21",
   "status": "proved",
   "theorems": [
    "C21_recenter",
    "C21_history",
    "C21_history_pruned"
   ],
   "note": ""
  },
  {
   "property": "C22",
   "status": "proved",
   "theorems": [
    "C22_partition",
    "C22_accepted_iff",
    "C22_rejection",
    "C22_valid_partition_accepted_refuted",
    "C22_empty_refuted"
   ],
   "note": "Proved for nr >= 1; findings: valid partition with one-point last region rejected, nr = 0 accepted but iteration is UB."
  },
  {
   "property": "C23",
   "status": "proved",
   "theorems": [
    "C23_pruned",
    "C23_uniform_is_unpruned"
   ],
   "note": ""
  },
  {
   "property": "C24",
   "status": "proved",
   "theorems": [
    "C24_permutation",
    "C24_batches_are_all",
    "C24_laws_exact",
    "C24_laws_binary64",
    "C24_integral"
   ],
   "note": "Any conforming std::partition; exact arithmetic for all points, binary64 for all points without NaN."
  },
  {
   "property": "C25",
   "status": "proved",
   "theorems": [
    "C25_sizes"
   ],
   "note": "Same scope as C24."
  },
  {
   "property": "C26",
   "status": "proved",
   "theorems": [
    "C26_box",
    "C26_box_exists"
   ],
   "note": "Any strict weak order; instantiated for reals and binary64 without NaN."
  },
  {
   "property": "C27",
   "status": "proved",
   "theorems": [
    "C27_terminates_iff",
    "C27_iterations",
    "C27_outcomes",
    "C27_empty_refuted",
    "C27_coincident_forever",
    "C27_binary64_refuted"
   ],
   "note": "Exact arithmetic: terminates iff at most max_batch_size points coincide. Findings: empty grid is UB; binary64 rounding can loop forever on three distinct points."
  },
  {
   "property": "C28",
   "status": "proved",
   "theorems": [
    "C28_clone_independent",
    "C28_copy_shares"
   ],
   "note": "Every program over the modelled operations (construction, copy, move, clone, recenter, element writes, iterators)."
  },
  {
   "property": "C29",
   "status": "proved",
   "theorems": [
    "C29_at",
    "C29_wrap",
    "C29_all_indices_refuted",
    "C29_iterate",
    "C29_empty_index_refuted"
   ],
   "note": "Every object and index vector 0 < ... < npts; an empty adopted index vector is UB. Finding: at(i) is UB for 2^31 <= i < 2^32 (index cast to int)."
  },
  {
   "property": "C30",
   "status": "proved",
   "theorems": [
    "C30_radial_names",
    "C30_radial_unknown",
    "C30_angular_names",
    "C30_angular_unknown",
    "C30_case_insensitive",
    "C30_radial_type",
    "C30_angular_type"
   ],
   "note": "All strings (C locale toupper) and all quadrature classes."
  },
  {
   "property": "C31",
   "status": "proved",
   "theorems": [
    "C31_radial",
    "C31_radial_bad_cast",
    "C31_radial_unknown",
    "C31_angular",
    "C31_unpruned",
    "C31_unpruned_errors",
    "C31_make_traits",
    "C31_make_traits_args"
   ],
   "note": "Every scheme, traits, size and data set with files of nominal length."
  },
  {
   "property": "C32",
   "status": "proved",
   "theorems": [
    "C32_robust",
    "C32_robust_invalid_base",
    "C32_treutler",
    "C32_generation",
    "C32_small_base_refuted",
    "C32_treutler_invalid_base_refuted",
    "C32_four_points_refuted"
   ],
   "note": "All radial sizes, families and base sizes. Findings: debug generation rejects radial sizes below 5 although the three-region partition of 4 points is valid; base order below 7 gives inner regions larger than the base; Treutler accepts unsupported base sizes."
  },
  {
   "property": "C33",
   "status": "proved",
   "theorems": [
    "C33_equality",
    "C33_equivalence",
    "C33_binary64",
    "C33_copy",
    "C33_real",
    "C33_same_grid"
   ],
   "note": "Any scalar; binary64 instance: reflexive iff no NaN parameter. Equal specs give equal grids in exact arithmetic. Copies are values in the model (unique_ptr ownership), so independence holds by construction."
  },
  {
   "property": "C34",
   "status": "proved",
   "theorems": [
    "C34_errors",
    "C34_radial_errors",
    "C34_regions",
    "C34_end_index_ignored"
   ],
   "note": "All region lists; idx_en is ignored (finding)."
  },
  {
   "property": "C35",
   "status": "proved",
   "theorems": [
    "C35_mirrored",
    "C35_middle",
    "C35_cancellation",
    "C35_legendre_middle_refuted"
   ],
   "note": "All n, every libm. Finding: the middle node of an odd Gauss-Legendre rule need not be 0 (its mirror image is itself, so antisymmetry fails there)."
  },
  {
   "property": "C36",
   "status": "proved",
   "theorems": [
    "C36_nodes",
    "C36_last_refuted"
   ],
   "note": "First node and monotonicity for all n >= 2 and all binary64 bounds with a finite last node; the 'last node is exactly up' part is refuted and replaced by a rounding bound."
  },
  {
   "property": "C37",
   "status": "proved",
   "theorems": [
    "C37_pruned_batched",
    "C37_factory",
    "C37_batched"
   ],
   "note": "Exact arithmetic."
  },
  {
   "property": "C38",
   "status": "proved",
   "theorems": [
    "C38_partition",
    "C38_schemes",
    "C38_dropped_points_refuted"
   ],
   "note": "Every scalar, every index list; both schemes. Finding: a first start index above 0 silently drops the points before it."
  },
  {
   "property": "C39",
   "status": "proved",
   "theorems": [
    "C39_move",
    "C39_iterator_live",
    "C39_loop",
    "C39_plus_moves_operand",
    "C39_plus_pure_refuted"
   ],
   "note": "Every program over the modelled operations; destruction is C47. Finding: operator+ mutates its operand."
  },
  {
   "property": "C40",
   "status": "proved",
   "theorems": [
    "C40_one_grid",
    "C40_converges",
    "C40_factory_radial"
   ],
   "note": "Exact real arithmetic on the code's nodes and the repository's decimal literals; rounding is not included. Factory form proved for radial integrands."
  },
  {
   "property": "C41",
   "status": "proved",
   "theorems": [
    "C41_built",
    "C41_drift",
    "C41_weights_kept",
    "C41_history",
    "C41_there_and_back_refuted"
   ],
   "note": "For every libm. Finiteness of the stored value is a hypothesis (overflow is not excluded); weight bound needs no underflow, spelled out."
  },
  {
   "property": "C42",
   "status": "proved",
   "theorems": [
    "C42_first_kind",
    "C42_second_kind",
    "C42_modified",
    "C42_third_kind",
    "C42_sum_first",
    "C42_sum_second",
    "C42_sum_modified",
    "C42_sum_third",
    "C42_shape_first",
    "C42_shape_second",
    "C42_shape_third",
    "C42_shape_refuted",
    "C42_shape_third_refuted"
   ],
   "note": "The accuracy d of cos and sin on [0,4] is a hypothesis, as IEEE 754 and C++ specify none; an instance with d = 2^-54 is constructed. For the third kind the number of points times (d + 23 * 2^-53) must be below 1/1000, otherwise the smallest cosine is not resolved."
  },
  {
   "property": "C43",
   "status": "proved",
   "theorems": [
    "C43_becke_map",
    "C43_becke_jacobian",
    "C43_mhl_map",
    "C43_mk_map",
    "C43_ta_map",
    "C43_becke",
    "C43_ta",
    "C43_mhl",
    "C43_mk",
    "C43_becke_shape",
    "C43_ta_shape",
    "C43_mhl_shape",
    "C43_mk_shape",
    "C43_mk_zero_radius",
    "C43_mk_shape_refuted",
    "C43_sum"
   ],
   "note": "The accuracy d of cos, sin, pow and log is a hypothesis; an instance with d = 2^-53 is constructed. Scales between 2^-100 and 2^100, MHL exponents 1 to 8, TA exponents 0 or 2^-100 to 8. Sizes: Becke up to 2^18, TA 2^16, MHL 2^30, MK 4000."
  },
  {
   "property": "C44",
   "status": "proved",
   "theorems": [
    "C44_literal",
    "C44_angular",
    "C44_unpruned",
    "C44_pruned",
    "C44_schemes",
    "C44_sum"
   ],
   "note": "Composes C43 with the stored angular data and the product, pruning and factory code. The accuracy d of the math library is a hypothesis; an instance is constructed. Becke up to 2^17 points, TA 2^16 with exponent at most 2, MHL exponents 1 and 2 (the factory uses 2), MK 4000. Sums are exact sums of stored numbers."
  },
  {
   "property": "C45",
   "status": "proved",
   "theorems": [
    "C45_rule",
    "C45_error",
    "C45_polynomials"
   ],
   "note": "Conditional on the construction returning a rule: no bound proves that the rounded Newton iteration meets its stopping test |dz| <= 2^-52 for every size (a search over sizes found no failure). The accuracy of cos is a hypothesis; an instance is constructed. Sums are exact sums of stored numbers."
  },
  {
   "property": "C46",
   "status": "proved",
   "theorems": [
    "C46_rule",
    "C46_error",
    "C46_polynomials"
   ],
   "note": "Conditional on the construction returning a rule: no bound proves that the rounded Newton iteration meets its stopping test |dz| <= 2^-52 for every size. The accuracy of cos is a hypothesis; an instance is constructed. Sums are exact sums of stored numbers."
  },
  {
   "property": "C47",
   "status": "proved",
   "theorems": [
    "C47_safe",
    "C47_sharp",
    "C47_views",
    "C47_others_survive",
    "C47_use_count",
    "C47_object_lifetime",
    "C47_no_leak",
    "C47_copy_keeps_iterators_refuted"
   ],
   "note": "Every program over the modelled operations with destruction, every scalar. The use counts of shared_ptr are modelled, its internals trusted; storage is not reused. Finding: an iterator dies with its batcher even when a copy keeps the quadrature."
  },
  {
   "property": "C48",
   "status": "proved",
   "theorems": [
    "C48_exact",
    "C48_binary64",
    "C48_scale"
   ],
   "note": "Grids as listed in the property; the order checks are those of C17. The sum over the nodes is taken without rounding."
  },
  {
   "property": "C49",
   "status": "proved",
   "theorems": [
    "C49_unpruned",
    "C49_pruned",
    "C49_schemes",
    "C49_schemes_converge",
    "C49_unpruned_converge",
    "C49_binary64"
   ],
   "note": "Angular grids as in C48; the degree is limited by the smallest region. In binary64 the grid is centred at the origin and the sum over the nodes is taken without rounding."
  },
  {
   "property": "C50",
   "status": "proved",
   "theorems": [
    "C50_values",
    "C50_owners",
    "C50_no_leak",
    "C50_independent",
    "C50_assigned",
    "C50_unset_raises",
    "C50_default_refuted"
   ],
   "note": "Every program over the modelled operations. Assigning or comparing unpruned specifications does not compile and counts as undefined in the model. Allocation does not fail, storage is not reused. Finding: a default-initialised pruned specification cannot be copied, compared or passed."
  },
  {
   "property": "C51",
   "status": "proved",
   "theorems": [
    "C51_batches",
    "C51_separated",
    "C51_neighbours_refuted",
    "C51_overflow_refuted"
   ],
   "note": "Complements C27: a sufficient condition in binary64, sharp in that neighbours (C51_neighbours_refuted) and overflowing extents (C51_overflow_refuted) are counterexamples. Coordinates up to 2^900."
  },
  {
   "property": "C52",
   "status": "proved",
   "theorems": [
    "C52_angular_exact",
    "C52_angular_binary64",
    "C52_unpruned_binary64",
    "C52_pruned_binary64",
    "C52_schemes_binary64",
    "C52_sum_binary64",
    "C52_odd_binary64",
    "C52_unpruned_exact",
    "C52_pruned_exact",
    "C52_sum_exact",
    "C52_odd_exact",
    "C52_ab_inversion_refuted",
    "C52_shifted_binary64_refuted"
   ],
   "note": "Womersley grids excluded (no symmetry intended). About the origin in binary64, about any centre in exact arithmetic; both limits proved by counterexample."
  },
  {
   "property": "C53",
   "status": "proved",
   "theorems": [
    "C53_any_state",
    "C53_calls",
    "C53_other_grid",
    "C53_programs",
    "C53_shells_dropped_refuted",
    "C53_unfinalised_refuted"
   ],
   "note": "States and calls for every scalar and both builds; the theorem on programs is for debug builds and assumes that move assignment leaves nothing, the old target or the source behind."
  },
  {
   "property": "C54",
   "status": "proved",
   "theorems": [
    "C54_legendre_best",
    "C54_legendre_smooth",
    "C54_legendre_lipschitz",
    "C54_lobatto_best",
    "C54_lobatto_smooth",
    "C54_lobatto_lipschitz",
    "C54_gauss_converges",
    "C54_chebyshev_smooth",
    "C54_chebyshev_converges"
   ],
   "note": "Legendre and Lobatto as stored in binary64, with the hypotheses of C45 and C46; the Chebyshev rules and the convergence theorems in exact arithmetic."
  },
  {
   "property": "C55",
   "status": "proved",
   "theorems": [
    "C55_angular",
    "C55_angular_binary64",
    "C55_unpruned",
    "C55_pruned",
    "C55_schemes",
    "C55_unpruned_converge",
    "C55_schemes_converge"
   ],
   "note": "Families and sizes whose tables are checked (C17, C48); whole grids in exact arithmetic (C44 relates the stored grids to them)."
  },
  {
   "property": "C56",
   "status": "proved",
   "theorems": [
    "C56_cases",
    "C56_finite",
    "C56_up_infinite",
    "C56_low_infinite",
    "C56_both_infinite",
    "C56_digits_refuted",
    "C56_order",
    "C56_order_refuted",
    "C56_symmetric_refuted",
    "C56_inside_refuted",
    "C56_overflow_refuted",
    "C56_ends"
   ],
   "note": "binary64, every math library (none is called). Findings: half of the digits of the weights lost on (-inf, inf), order and symmetry lost there, nodes leaving finite intervals, overflow, infinite end nodes."
  },
  {
   "property": "C57",
   "status": "proved",
   "theorems": [
    "C57_rule",
    "C57_total",
    "C57_tracks",
    "C57_smooth",
    "C57_lipschitz",
    "C57_shape",
    "C57_distinct_refuted",
    "C57_vanish_refuted",
    "C57_inside_refuted",
    "C57_overflow_refuted"
   ],
   "note": "binary64, every math library (none is called), 2 <= n <= 2^53, bounds up to 2^800 in size. Integrands are evaluated and summed exactly. Findings: coinciding nodes, vanishing weights, last node above the bound, overflow."
  },
  {
   "property": "C58",
   "status": "proved",
   "theorems": [
    "C58_periodic",
    "C58_periodic_binary64",
    "C58_gc2_second",
    "C58_gc2_high",
    "C58_gc2m_second",
    "C58_gc2m_high",
    "C58_integral",
    "C58_chebyshev_exact",
    "C58_chebyshev_best",
    "C58_chebyshev_smooth",
    "C58_chebyshev_second",
    "C58_chebyshev_high",
    "C58_trapezoid_second",
    "C58_trapezoid_high",
    "C58_stored",
    "C58_grid",
    "C58_grid_binary64"
   ],
   "note": "Rates in terms of the pulled-back integrand, with explicit constants. Stored forms assume the math library errors of C43 and exact evaluation and summation of the integrand. Whole-grid forms: a radial factor times a polynomial of the degree the angular table is checked for."
  },
  {
   "property": "C59",
   "status": "proved",
   "theorems": [
    "C59_finite",
    "C59_finite_refuted",
    "C59_unpruned",
    "C59_pruned",
    "C59_schemes",
    "C59_sum",
    "C59_integral"
   ],
   "note": "Centres up to 2^900 in size; the full claim without that bound is refuted. Assumes the math library errors of C43 and exact evaluation and summation of the integrand."
  },
  {
   "property": "C60",
   "status": "proved",
   "theorems": [
    "C60_runs",
    "C60_legendre_smooth",
    "C60_legendre_lipschitz",
    "C60_lobatto_smooth",
    "C60_lobatto_lipschitz",
    "C60_half_line",
    "C60_left_half_line",
    "C60_left_refuted",
    "C60_lobatto_half_infinite"
   ],
   "note": "Conditional on the construction returning a rule, as C45 and C46. No code in the repository applies the transformation to a rule; the theorems say what a caller gets. Doubly infinite intervals are C61."
  },
  {
   "property": "C61",
   "status": "proved",
   "theorems": [
    "C61_runs",
    "C61_line",
    "C61_odd_refuted",
    "C61_lobatto_infinite"
   ],
   "note": "Conditional on the construction returning a rule, as C45 and C46. No code in the repository applies the transformation to a rule; the theorems say what a caller gets."
  },
  {
   "property": "C62",
   "status": "proved",
   "theorems": [
    "C62_base",
    "C62_runs",
    "C62_interval"
   ],
   "note": "Second kind only, finite bounds only. The stored modified rule is outside (its nodes are not known to stay in [-1,1]); for the first kind no rate on plain integrands is proved."
  }
 ]
}