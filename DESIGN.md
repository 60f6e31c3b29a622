# Formal model of IntegratorXX in Rocq

The library under study (`/repo`, header-only C++) builds quadrature rules: one
dimensional rules, radial rules, tabulated rules on the sphere, products of
these, pruned products, spatial batches of grid points, and factories for all of
them. This directory contains a Gallina model of that code and theorems about
it. `properties.jsonl` lists the properties (C01, C02, ...), `MANIFEST.json`
says which theorem settles which property.

## Layout

    rocq/theories/Base/    outcome monad, bounds-checked vectors, loops, scalars
    rocq/theories/Model/   the code, function by function, with file:line cites
    rocq/theories/Spec/    small independent specifications used by statements
    rocq/theories/Proofs/  lemmas and proofs
    rocq/theories/Props/   one file per group of properties: statement, proof by
                           reference, example meeting the hypotheses,
                           Print Assumptions

## Modelling conventions

* **Outcomes.** A call returns `Ok v`, `Throw e` (a C++ exception of kind `e`),
  `AssertFail` (an `assert` fires; only in builds with assertions, selected by a
  boolean `dbg`), `UB` (undefined behaviour: out-of-bounds `operator[]`,
  `back()` of an empty vector, dereference of an end iterator), or `OutOfFuel`
  (the fuel given to a `while` loop ran out). Theorems never treat `UB` or
  `OutOfFuel` as success.
* **Scalars.** The code is a template over floating point types. The model is
  written once over a record `Scalar` of operations (+,-,*,/,<,cos,...).
  Theorems about structure hold for *every* `Scalar`, hence for binary64 with
  any math library. Theorems about numerical values use the instance `RS`
  (Coq's real numbers), i.e. exact arithmetic; theorems and refutations about
  rounding use the instance `FS` (Flocq's binary64, round to nearest even) in
  which the transcendental functions are an arbitrary parameter.
* **Sizes** are `nat` (lengths) or `Z` (64-bit integers in the lookup tables).
  Wrap-around of `size_t` is modelled where the code can reach it (`npts-1`
  with `npts = 0`), as the UB it leads to. Memory exhaustion is not modelled.
* **Library algorithms** that the standard only specifies up to permutation
  (`std::partition`) are parameters with their standard specification as a
  hypothesis of the theorem, and an instance is given to show the hypothesis is
  satisfiable.
* **Heap.** `shared_ptr` aliasing between batchers is modelled by an explicit
  heap of quadratures.
* **Angular tables.** The lookup tables are transcribed completely. The grid
  data (the `*_N.hpp` files) is transcribed as exact decimals by
  `tools/gen_grids.py`: all Lebedev-Laikov, Delley and Ahrens-Beylkin files, and
  Womersley files up to 513 points. Files whose points form symmetry blocks are
  stored block by block (`Model/GridCode.v`); the generator expands the blocks
  and compares with every literal of the file. Theorems other than C17 take the
  grid data as a parameter.
* **binary64.** `FS m` uses Flocq's binary64 with round to nearest even for
  +, -, *, /, sqrt, comparison and integer conversion, and an arbitrary `m` for
  cos, sin, log, exp, pow. All NaNs are one value. Decimal literals are rounded
  once. No fused multiply-add contraction, no extended precision, no
  `-ffast-math`.

## Per property plan

| id | modelled | proof idea |
|----|----------|-----------|
| C01 | `quadrature.hpp` accessors, every `generate` | loop invariants on lengths, any scalar |
| C02 | `uniform.hpp` | closed form of the loop; exactness by summation; convergence by Riemann sums |
| C03-C05 | `gausschebyshev{1,2,3}.hpp` over R | closed form; discrete orthogonality of cosines; power-reduction of cosine polynomials; integral by Coquelicot |
| C06 | `gausschebyshev2modified.hpp` over R | derivative of the substitution; sum of sin^4 |
| C07 | `legendre.hpp` over R | recurrence, ODE, orthogonality via Rodrigues-free argument (self-adjointness) |
| C08, C09 | `gausslegendre.hpp`, `gausslobatto.hpp` | loop structure for any scalar; node error from |P/P'| bound; exactness from interpolation |
| C10 | `bound_transform.hpp` over extended bounds | derivative by Coquelicot; the (-inf,up) weight has the wrong sign: refuted |
| C11, C12 | the four radial traits and `radial_transform.hpp` | derivatives, monotonicity, limits |
| C13 | traits objects as a sum type | case analysis |
| C14, C15 | complete lookup tables on Z | decision by computation on the finite table plus a for-all-Z argument |
| C16 | `generate` of the four families | unsupported sizes silently give zeros: refuted as documented |
| C17 | grid data as exact decimals | harmonics evaluated by a verified fixed-point interval engine on 63-bit integers; span of the harmonics, orthogonality, surface integrals; AB-552 table refuted |
| C18-C23 | composite quadratures | list/permutation reasoning, any scalar; sums over R |
| C24-C27 | `spherical_micro_batcher.hpp` | loop invariant on (permutation, sorted partition); progress measure |
| C28, C29, C39 | batcher objects and iterators over a heap | invariant over operation histories: exact set of variables pointing at an address |
| C30, C31 | factories | string functions, case analysis |
| C32-C34 | specifications, pruning | integer division bounds, table facts |
| C35, C36 | generic scalar / Flocq binary64 | mirrored write loop; rounding monotonicity; refutation of last node = up |
| C37 | composition of the above | permutations and sums |
| C38 | pruned construction with `NDEBUG` | exact characterisation of the defined cases by induction over the partition |
| C40 | product grids against integrals over space | shell-wise angular error (C17) plus convergence of the radial rules (C12) |
| C41 | spherical grids and recentering in binary64 | rounding error analysis over Flocq, induction over the list of centres |
| C42 | Gauss-Chebyshev rules in binary64 with a libm of stated accuracy | forward error analysis; harmonic sums |
| C43 | radial rules in binary64 with a libm of stated accuracy | forward error analysis of the maps; sensitivity of the exact maps to the base node |
| C44 | whole grids of the factory in binary64 | correct rounding of literals; relative errors through products; sizes bounded away from under- and overflow |
| C45 | binary64 Gauss-Legendre rule | energy bound on the rounding errors of the three-term recurrence; invariant interval for the rounded Newton iteration |
| C46 | binary64 Gauss-Lobatto rule | the same recurrence bound; invariant interval for the rounded fixed-derivative iteration |
| C47 | destruction of batchers, use counts, released index vectors | invariant tying use counts to the set of existing owners; simulation by Model/Heap.v |
| C48 | angular grids on polynomials, exact and binary64 | harmonics against the polynomial at near-sphere nodes: Fourier coefficients in the azimuth, weighted distance of the nodes from the poles computed for each file |
| C49 | factory grids on polynomial times function of the distance, exact, limit and binary64 | shell by shell: scaled polynomial on the sphere (C48), regions as segments of the radial rule, envelopes for near-sphere nodes and rounding |
| C50 | specification objects owning their traits: copies, assignment, moves of the pointer, by-value calls, destruction | refinement: the heap program shows what the program over values shows; invariant that undeleted blocks and owners correspond one to one |
| C51 | batching in binary64 | the first cut of an interval with a binary64 number inside is strictly inside: Sterbenz and midpoints when the extent is exact, error bounds otherwise, parity of multiples of 2^-1074 for subnormal extents |
| C52 | symmetry of angular grids and of whole grids, exact and binary64 | symbolic shapes of the orbit macros checked once for all 48 maps; multiplication by a radius commutes with sign changes for all binary64 values, recentring closed form |
| C53 | radial partition objects: any state, calls in any order, programs over variables | exact loop outcome by induction over both vectors; invariant open or closed for n points |
| C54 | error of Gauss-type rules for general integrands, exact and as stored in binary64 | Lebesgue-type inequality (positive weights), interpolation error at Chebyshev nodes, Bernstein polynomials, then the node and weight errors of C45, C46 |
| C55 | Angular rules and whole grids applied to functions that are not polynomials, exactly and (angular rules) as stored in binary64 | compare with a near polynomial: the rule is exact for it up to the table tolerance (C48), the rest is bounded by the sum of the absolute weights; nodes off the sphere and rounding cost the Lipschitz constant; sum over shells as in C49 |
| C56 | `bound_transform.hpp` with double bounds (`Model/BoundFloat.v`) | forward error analysis; monotonicity of rounding; for x*x-1 the rounding error is bounded by the square of the distance to 1 or by half an ulp, whichever is smaller |
| C57 | `uniform_generate` in binary64 | error of every node and weight (rounding of x, four roundings of x - lo, underflow), total weight, error against the exact rule and against the integral (C2 and Lipschitz integrands), strict order and positivity when the step exceeds twice the drift; n up to 2^53, finite bounds up to 2^800 |
| C58 | uniform_generate, gc2_generate, gc2m_generate, radial_generate, generate_grid_pruned (exact and binary64) | Euler-Maclaurin with bounded Bernoulli polynomials: order N of the trapezoid rule on integrands with matching odd end derivatives (exact and stored); second and higher order of the Chebyshev-type rules on plain integrands; exactness, best-approximation, classical and algebraic rates of all four radial schemes; whole grids against the integral over space, exact and as stored |
| C59 | generate_grid_unpruned, generate_grid_pruned, generate_pruned_schemes, recenter (binary64) | each recentring adds the rounded shift to every coordinate: induction over the list of centres gives finiteness for centres up to 2^900 and a coordinate error growing by 8*2^-53 per move; comparison with the exact recentred grid and with the integral over space |
| C60 | transform_minus_one_to_one applied to gl_generate and lob_generate (binary64) | pair-by-pair comparison of stored node and weight with the exact map (C56), composed with the error of the stored Gauss rules (C54); half lines through the exact substitution r = (1+x)/(1-x) and a lower bound 2/(n(n+1)) on Gauss weights |
| C61 | transform_minus_one_to_one to (-inf, inf) applied to gl_generate and lob_generate (binary64) | Gauss nodes stay 3/(n+1)^2 away from the ends, so x*x - 1 keeps its digits; exact substitution y = x/(1-x^2) with its explicit inverse for the improper integral; the symmetry loss by evaluation of one rule |
| C62 | transform_minus_one_to_one to finite bounds applied to gc2_generate (binary64) | composes C42 (stored against exact rule), C58 (second order in the angle) and the transformation error of C60; the total stored weight is at most 3 |

## What is modelled

| code | model |
|------|-------|
| `quadrature.hpp` (construction with its sanity check, `npts`, `points(i)`, `weights(i)`, copy, move) | `Model/Quadrature.v` |
| `quadratures/primitive/*.hpp`, `util/legendre.hpp` | `Model/Primitive.v` |
| `quadratures/radial/*.hpp` (traits, `radial_transform.hpp`) | `Model/Radial.v` |
| `quadratures/s2/{ahrens_beylkin,delley,lebedev_laikov,womersley}.hpp`, `util/copy_grid.hpp`, `util/create_array.hpp` | `Model/S2.v`, `Model/S2Tables.v` |
| `quadratures/s2/<family>/<family>_N.hpp` | `Model/GridCode.v`, `Model/Grids*.v` |
| `util/bound_transform.hpp` | `Model/BoundTransform.v` |
| `composite_quadratures/*.hpp` | `Model/Composite.v`; partition objects: `Model/Partition.v` |
| `batch/spherical_micro_batcher.hpp` | `Model/Batcher.v`, `Model/Heap.v`, `Model/Lifetime.v` |
| `generators/*.hpp`, `generators/impl/*.hpp` | `Model/Factory.v`; objects owning their traits: `Model/SpecHeap.v` |

## Not modelled

Template metaprogramming (overload selection, `enable_if`; of `type_traits.hpp` only
what `radial_from_type` and `angular_from_type` decide, C30),
allocation failure, reuse of released storage, timing and verbosity output of the batcher, explicit
instantiations in `src/`, the text of exception messages, floating point types
other than binary64 (theorems for every `Scalar` cover them), Womersley files
above 513 points, the tests. Specification copies are values in `Model/Factory.v`;
that the code's `unique_ptr` ownership makes them so is C50, over the heap of
`Model/SpecHeap.v`.

## Findings

Statements of the documentation or of an obvious intent that are false of the
code, each proved as a `_refuted` theorem or as part of the theorem named.

* C02, C09: zero points is undefined behaviour for the uniform and the Lobatto
  rule; one uniform point gives a NaN node, one Lobatto point an infinite weight.
* C06: the one-point modified Chebyshev rule has total weight 8/3, not 2.
* C07: `eval_Pn` returns a NaN derivative at +-1.
* C10: for (-inf, up) the weight transformation has the wrong sign.
* C16: an unsupported angular size silently gives a grid of zeros.
* C17: `ahrens_beylkin_552.hpp` is not a quadrature rule (weights sum to
  4 pi - 0.46). Negative weights: Lebedev-Laikov 74, 230, 266 and Ahrens-Beylkin
  1572. `lebedev_laikov_5294.hpp` is never dispatched.
* C22: a valid partition whose last region starts at the last radial point is
  rejected; an empty partition is accepted and iterating it is undefined.
* C27: an empty grid is undefined behaviour in the batcher; more than
  `max_batch_size` coincident points loop forever; in binary64 rounding can make
  it loop forever on distinct points.
* C29: an adopted empty index vector is undefined behaviour; `at(i)` casts the
  index to `int`, so it is undefined for 2^31 <= i < 2^32.
* C32: radial sizes below 5 are rejected in debug builds by both pruning schemes;
  a small base order gives inner regions larger than the base; Treutler pruning
  does not validate the base size.
* C34: the end index of a region is ignored.
* C35: the middle node of an odd Gauss-Legendre rule need not be 0 in binary64.
* C36: the last uniform node need not be the upper bound in binary64.
* C38: without assertions, pruned grids with fewer than 3 radial points are
  undefined behaviour, and a partition whose first index is positive silently
  drops the points before it.
* C39: `it + d` on a batch iterator moves `it` itself. Every use of a moved-from
  batcher is undefined behaviour (null `shared_ptr`), although `nbatches()` still
  answers 2^64-1.
* C41: recentering a grid away and back is not the identity in binary64; distinct
  points can coincide afterwards.
* C42: with an accurate libm the binary64 second-kind rule with 2^30 - 1 nodes
  starts at exactly -1 with weight 0; the third-kind rule of that size ends at
  exactly 1 with weight 0.
* C43: a binary64 Mura-Knowles rule of 2^18 points or more starts at radius 0,
  because `1 - x^3` rounds to 1 before `log` is taken (`log1p` would avoid it). For
  smaller sizes the relative error of the first radius grows like n^3.
* C47: an iterator dies with the batcher it came from even when a copy of the
  batcher keeps the quadrature alive.
* Not provable in the model: `const_iterator::operator==` takes an `iterator`
  argument, so comparing two const iterators does not compile.
* C33: a specification with a NaN parameter is not equal to itself.
* C61: sent to (-inf, inf), the symmetric two-point Gauss-Legendre rule is no longer symmetric and
  sums an odd integrand to a nonzero value (C61_odd_refuted); Lobatto rules get infinite nodes.
* C60: a Gauss-Legendre rule sent to (-inf, up] approximates minus the integral
  (C60_left_refuted); a Lobatto rule sent to [lo, inf) always holds an infinite node with an
  infinite weight.
* C59: recentring accumulates: a stored grid moved to a far centre and back does not return
  to its points; with centres of size 2^1023 a coordinate becomes infinite and stays infinite
  after the grid is moved back to its first centre (C59_finite_refuted).
* C58: the factorial rate of the Becke and Treutler-Ahlrichs rules needs an integrand that
  pulls back to a smooth function times sqrt(1-x^2); for integrands smooth in x without
  that factor (densities times r^2) the theorems give algebraic rates only.
* C57: stored trapezoid rules: on [1, 1+2^-52] neighbouring nodes coincide; on
  [0, 2^-1074] with 4 points all weights are zero; on [0,7] with 26 points the last node
  is above 7; with bounds -2^1023 and 2^1023 the first node is NaN and all weights are
  infinite at every size.
* C56: on (-inf, inf) the transformed weights keep only half of their digits near the
  ends of the rule, nodes can change order and lose their symmetry; on finite
  intervals a node can leave the interval and bounds far apart give NaN; nodes at
  +-1 become infinite at infinite bounds.
* C53: a `RadialGridPartition` made for one radial grid and used with a longer one
  gives a grid without the outer shells, also in debug builds (nothing compares the
  two sizes); a partition that was never finalised, or finalised for two radial
  grids, is undefined behaviour to use even with assertions.
* C52: Ahrens-Beylkin grids are not symmetric under point reflection (72 points), so
  odd integrands need not cancel on them; and in binary64 a grid about a centre other
  than the origin need not be symmetric about it (Lebedev-Laikov 6, centre x = 1,
  radius 2^-53: one of two opposite points rounds, the other does not).
* C51: batching two finite points whose extent overflows (for example x = 2^1023
  and x = -2^1023) never ends, because the first cut becomes NaN and every point
  is inside every box; distinct neighbouring points are never parted either.
* C50: `PrunedSphericalGridSpecification p;` leaves `radial_quad` indeterminate, so
  that copying it, comparing it or passing it to `generate_grid` is undefined
  behaviour instead of the exception "RadialTraits Not Set" (`p{}` raises it).

## Seeded faults

`seeded/LOG.jsonl` has one line per edit of the model made in a scratch copy.
A script rebuilds the copy, replaces each proof that no longer compiles by an
assumption, and lists under `failed` the theorems that depend on one of them
(`first_broken_proofs` are those proofs). A proof that does not finish within
420 seconds counts as broken; the log does not tell such a timeout from an
error message. A line with a `note` was judged otherwise, as the note says.
An empty `failed` is a surviving fault.

So `failed` says that the proof of a theorem no longer goes through, not that
the theorem is false of the edited program: where one lemma about the edited
definition supports many theorems, all of them are listed, including some that
may still hold. Only for `hf3` was the negation of the theorem proved.

## Trusted base

* Coq 8.16.1's kernel, including its virtual machine (`vm_compute`) and its
  63-bit machine integers. `coqchk` re-checks every file without the virtual
  machine.
* The axioms printed under each theorem by `Print Assumptions`, all from Coq's
  standard library; see the list below.
* That the model matches the code: each definition cites the lines it models.
* For C17, that `tools/gen_grids.py` transcribes the literals (a regular
  expression over the files; the script re-expands and compares).

### Axioms per theorem

`A` = `ClassicalDedekindReals.sig_forall_dec`,
`B` = `ClassicalDedekindReals.sig_not_dec`,
`C` = `Classical_Prop.classic`,
`D` = `FunctionalExtensionality.functional_extensionality_dep`,
`I` = the primitive operations of `PrimInt63` and their specifications in
`Coq.Numbers.Cyclic.Int63.Uint63`.

* **none**:
  C01_angular, C01_chebyshev, C01_copy_move, C01_legendre, C01_lobatto,
  C01_lobatto_zero, C01_radial, C01_uniform, C01_uniform_zero,
  C02_zero_points, C08_convergence, C09_convergence, C09_small, C13_cast,
  C13_clone, C13_compare_iff, C13_compare_refl, C13_compare_sym,
  C13_compare_trans, C14_lookups_inverse, C14_lookups_monotone,
  C14_lookups_range, C14_octahedral_sizes, C14_sizes_feasible,
  C14_womersley_orders, C14_womersley_sizes, C15_next_fixed_iff,
  C15_next_idempotent, C15_next_monotone, C15_next_order, C16_dispatch,
  C16_supported, C16_unsupported_fails_refuted, C16_unsupported_silent,
  C18_product, C19_accepted_iff, C19_concat, C19_subquad, C19_unchecked,
  C19_whole, C20_spherical, C21_recenter, C22_accepted_iff, C22_empty_refuted,
  C22_partition, C22_rejection, C22_valid_partition_accepted_refuted,
  C23_pruned, C23_uniform_is_unpruned, C24_batches_are_all, C24_permutation,
  C25_sizes, C26_box, C26_box_exists, C27_coincident_forever,
  C27_empty_refuted, C27_outcomes, C28_clone_independent, C28_copy_shares,
  C29_all_indices_refuted, C29_at, C29_empty_index_refuted, C29_iterate,
  C29_wrap, C30_angular_names, C30_angular_type, C30_angular_unknown,
  C30_case_insensitive, C30_radial_names, C30_radial_type, C30_radial_unknown,
  C31_angular, C31_make_traits, C31_make_traits_args, C31_radial,
  C31_radial_bad_cast, C31_radial_unknown, C31_unpruned, C31_unpruned_errors,
  C32_four_points_refuted, C32_generation, C32_robust,
  C32_robust_invalid_base, C32_small_base_refuted, C32_treutler,
  C32_treutler_invalid_base_refuted, C33_copy, C33_equality, C33_equivalence,
  C34_end_index_ignored, C34_errors, C34_radial_errors, C34_regions,
  C38_dropped_points_refuted, C38_partition, C38_schemes, C39_iterator_live,
  C39_loop, C39_move, C39_plus_moves_operand, C39_plus_pure_refuted,
  C47_copy_keeps_iterators_refuted, C47_no_leak, C47_object_lifetime,
  C47_others_survive, C47_safe, C47_sharp, C47_use_count, C47_views,
  C50_assigned, C50_default_refuted, C50_independent, C50_no_leak, C50_owners,
  C50_unset_raises, C50_values, C53_any_state, C53_calls, C53_other_grid,
  C53_programs, C53_shells_dropped_refuted, C53_unfinalised_refuted
* **A D**:
  C18_iterated_sum, C18_separable, C44_sum, C48_scale, C52_odd_binary64,
  C52_odd_exact, C52_sum_binary64, C52_sum_exact, C59_sum
* **A B D**:
  C07_polynomial, C09_lobatto
* **A B C D**:
  C02_affine, C02_converges, C02_error, C02_one_point, C02_shape,
  C02_textbook, C03_exact, C03_shape, C04_converges, C04_exact, C04_shape,
  C05_exact, C05_shape, C06_constants, C06_converges, C06_odd,
  C06_one_refuted, C06_shape, C06_substitution, C06_trapezoid, C06_weights,
  C07_bound, C07_endpoint_refuted, C07_equation, C07_evaluation, C08_close,
  C08_error, C08_gauss, C08_polynomials, C08_shape, C08_succeeds, C09_close,
  C09_error, C09_polynomials, C09_shape, C09_succeeds, C10_change_of_variable,
  C10_exactness_transfers, C10_left_infinite_refuted, C11_bijection,
  C11_jacobian, C11_scaling, C12_change_of_variable, C12_converges, C12_nodes,
  C12_shape, C12_total, C13_compare_exact, C17_norm, C17_polynomials,
  C17_weight_sum, C20_iterated_sum, C20_radius, C20_separable, C21_history,
  C21_history_pruned, C24_integral, C24_laws_binary64, C24_laws_exact,
  C27_binary64_refuted, C27_iterations, C27_terminates_iff, C33_binary64,
  C33_real, C33_same_grid, C35_cancellation, C35_legendre_middle_refuted,
  C35_middle, C35_mirrored, C36_last_refuted, C36_nodes, C37_batched,
  C37_factory, C37_pruned_batched, C40_converges, C40_one_grid, C41_built,
  C41_drift, C41_history, C41_there_and_back_refuted, C41_weights_kept,
  C42_first_kind, C42_modified, C42_second_kind, C42_shape_first,
  C42_shape_refuted, C42_shape_second, C42_shape_third,
  C42_shape_third_refuted, C42_sum_first, C42_sum_modified, C42_sum_second,
  C42_sum_third, C42_third_kind, C43_becke, C43_becke_jacobian, C43_becke_map,
  C43_becke_shape, C43_mhl, C43_mhl_map, C43_mhl_shape, C43_mk, C43_mk_map,
  C43_mk_shape, C43_mk_shape_refuted, C43_mk_zero_radius, C43_sum, C43_ta,
  C43_ta_map, C43_ta_shape, C44_literal, C45_error, C45_polynomials, C45_rule,
  C46_error, C46_polynomials, C46_rule, C51_batches, C51_neighbours_refuted,
  C51_overflow_refuted, C51_separated, C52_ab_inversion_refuted,
  C52_shifted_binary64_refuted, C54_chebyshev_converges, C54_chebyshev_smooth,
  C54_gauss_converges, C54_legendre_best, C54_legendre_lipschitz,
  C54_legendre_smooth, C54_lobatto_best, C54_lobatto_lipschitz,
  C54_lobatto_smooth, C56_both_infinite, C56_cases, C56_digits_refuted,
  C56_ends, C56_finite, C56_inside_refuted, C56_low_infinite, C56_order,
  C56_order_refuted, C56_overflow_refuted, C56_symmetric_refuted,
  C56_up_infinite, C57_distinct_refuted, C57_inside_refuted, C57_lipschitz,
  C57_overflow_refuted, C57_rule, C57_shape, C57_smooth, C57_total,
  C57_tracks, C57_vanish_refuted, C58_chebyshev_best, C58_chebyshev_exact,
  C58_chebyshev_high, C58_chebyshev_second, C58_chebyshev_smooth,
  C58_gc2_high, C58_gc2_second, C58_gc2m_high, C58_gc2m_second, C58_integral,
  C58_periodic, C58_periodic_binary64, C58_stored, C58_trapezoid_high,
  C58_trapezoid_second, C59_finite, C59_finite_refuted, C60_half_line,
  C60_left_half_line, C60_left_refuted, C60_legendre_lipschitz,
  C60_legendre_smooth, C60_lobatto_half_infinite, C60_lobatto_lipschitz,
  C60_lobatto_smooth, C60_runs, C61_line, C61_lobatto_infinite,
  C61_odd_refuted, C61_runs, C62_base, C62_interval, C62_runs
* **A B C D I**:
  C17_ahrens_beylkin_552_refuted, C17_ahrens_beylkin_partial, C17_delley,
  C17_lebedev, C17_positive_refuted, C17_weight_signs, C17_womersley_partial,
  C40_factory_radial, C44_angular, C44_pruned, C44_schemes, C44_unpruned,
  C48_binary64, C48_exact, C49_binary64, C49_pruned, C49_schemes,
  C49_schemes_converge, C49_unpruned, C49_unpruned_converge,
  C52_angular_binary64, C52_angular_exact, C52_pruned_binary64,
  C52_pruned_exact, C52_schemes_binary64, C52_unpruned_binary64,
  C52_unpruned_exact, C55_angular, C55_angular_binary64, C55_pruned,
  C55_schemes, C55_schemes_converge, C55_unpruned, C55_unpruned_converge,
  C58_grid, C58_grid_binary64, C59_integral, C59_pruned, C59_schemes,
  C59_unpruned
