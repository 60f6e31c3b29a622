{"id": "C01", "title": "Point and weight arrays always have the requested length", "statement": "Constructing any one-dimensional quadrature with a supported point count n yields a quadrature whose npts(), points().size() and weights().size() are all n; points(i) and weights(i) succeed exactly for i < n and raise std::out_of_range for every other index; copies and moves (also to a base object) preserve points and weights.", "quantifier": "every quadrature family, every n for which the construction succeeds, every index i, every scalar type (binary64 or exact reals)", "why_tests_cant": "Tests construct a handful of sizes; the index and size claim ranges over all n and all i and must hold whatever the math library returns.", "anchors": ["include/integratorxx/quadrature.hpp: QuadratureBase, Quadrature", "include/integratorxx/quadratures/primitive/*.hpp: quadrature_traits::generate"]}
{"id": "C02", "title": "Uniform trapezoid rule", "statement": "For n >= 2 and lo < up the uniform rule's nodes run from lo to up in equal increasing steps, its weights are positive and sum to up-lo, it integrates every affine function exactly (exact arithmetic), it equals the textbook composite trapezoidal sum, its error for a twice differentiable integrand is O(1/n^2), and it converges to the Riemann integral for every continuous integrand. For n = 0 and n = 1 the constructor has no meaningful result.", "quantifier": "all n >= 2, all real intervals lo < up, all affine / continuous / twice differentiable integrands", "why_tests_cant": "Tests check one interval, one n and one tolerance; exactness and convergence are for-all statements over integrands and sizes.", "anchors": ["include/integratorxx/quadratures/primitive/uniform.hpp: UniformTrapezoid generate"]}
{"id": "C03", "title": "Gauss-Chebyshev (1st kind) exactness", "statement": "The n-point rule of the first kind integrates p(x)/sqrt(1-x^2) over (-1,1) exactly for every polynomial p of degree at most 2n-1 (exact arithmetic), has n strictly increasing nodes inside (-1,1), positive weights, and is symmetric about 0.", "quantifier": "all n >= 1, all polynomials of degree <= 2n-1", "why_tests_cant": "A test can try finitely many n and polynomials to a tolerance; exactness is an identity for all n and p.", "anchors": ["include/integratorxx/quadratures/primitive/gausschebyshev1.hpp: generate"]}
{"id": "C04", "title": "Gauss-Chebyshev (2nd kind) exactness", "statement": "The n-point rule of the second kind integrates p(x)*sqrt(1-x^2) over (-1,1) exactly for every polynomial p of degree at most 2n-1, has n strictly increasing nodes inside (-1,1), positive weights, and is symmetric about 0.", "quantifier": "all n >= 1, all polynomials of degree <= 2n-1", "why_tests_cant": "A test can try finitely many n and polynomials to a tolerance; exactness is an identity for all n and p.", "anchors": ["include/integratorxx/quadratures/primitive/gausschebyshev2.hpp: generate"]}
{"id": "C05", "title": "Gauss-Chebyshev (3rd kind) exactness", "statement": "The n-point rule of the third kind integrates p(x)*sqrt(x/(1-x)) over (0,1) exactly for every polynomial p of degree at most 2n-1, has n strictly increasing nodes inside (0,1) and positive weights.", "quantifier": "all n >= 1, all polynomials of degree <= 2n-1", "why_tests_cant": "A test can try finitely many n and polynomials to a tolerance; exactness is an identity for all n and p.", "anchors": ["include/integratorxx/quadratures/primitive/gausschebyshev3.hpp: generate"]}
{"id": "C06", "title": "Modified Gauss-Chebyshev (2nd kind) rule", "statement": "The modified second-kind rule has n strictly increasing nodes inside (-1,1), positive weights, is symmetric about 0, is the trapezoidal rule of the Perez-Jorda substitution (each weight is pi/(n+1) times the derivative of the substitution at its node), and integrates constants and odd functions exactly for every n >= 2 (total weight 2).", "quantifier": "all n >= 2, all integrands", "why_tests_cant": "The claim relates every node of every size to a derivative and an exact sum.", "anchors": ["include/integratorxx/quadratures/primitive/gausschebyshev2modified.hpp: generate"]}
{"id": "C07", "title": "Legendre polynomial evaluation", "statement": "The public Legendre evaluation returns, for every degree n and abscissa x, P_n(x) and P_{n-1}(x), and for x different from +-1 the derivative P_n'(x), where P_n is the Legendre polynomial: degree n, P_n(1)=1, solution of Legendre's differential equation, orthogonal over [-1,1] to every polynomial of lower degree, |P_n| <= 1 on [-1,1].", "quantifier": "all n, all real x, all polynomials of lower degree", "why_tests_cant": "Point tests cannot establish a recurrence-defined family for all n or orthogonality for all polynomials.", "anchors": ["include/integratorxx/util/legendre.hpp: eval_Pn"]}
{"id": "C08", "title": "Gauss-Legendre rule", "statement": "When construction of an n-point Gauss-Legendre rule succeeds, the nodes are symmetric about 0, equal-weight in mirrored pairs; each node is a Newton fixed point up to the convergence tolerance and lies within n*tolerance of a true zero of P_n; if the nodes are the n zeros of P_n then the weights are the exact Gauss weights and every polynomial of degree <= 2n-1 is integrated exactly. When an iteration does not settle in 100 steps a runtime_error is raised and no rule is returned.", "quantifier": "all n, all convergence behaviours of the iteration, all polynomials of degree <= 2n-1", "why_tests_cant": "Tests check a few n against tolerances; the implication from Newton convergence to node accuracy and from nodes to exactness is universal.", "anchors": ["include/integratorxx/quadratures/primitive/gausslegendre.hpp: generate", "include/integratorxx/util/legendre.hpp"]}
{"id": "C09", "title": "Gauss-Lobatto rule", "statement": "When construction of an n-point (n >= 2) Gauss-Lobatto rule succeeds, the end nodes are exactly -1 and 1 with weight 2/(n(n-1)), nodes and weights are mirror symmetric, all weights are positive; if interior nodes are the zeros of P_{n-1}' then every polynomial of degree <= 2n-3 is integrated exactly. Non-convergence raises runtime_error.", "quantifier": "all n >= 2, all convergence behaviours, all polynomials of degree <= 2n-3", "why_tests_cant": "Universal over n, polynomials and iteration outcomes.", "anchors": ["include/integratorxx/quadratures/primitive/gausslobatto.hpp: generate"]}
{"id": "C10", "title": "Interval transformation", "statement": "Transforming a node x in (-1,1) with weight w to the interval (lo,up) (finite, half-infinite, doubly infinite) returns a point strictly inside (lo,up), increasing in x and onto, and a weight equal to w times the derivative of the map, so that transformed rules integrate over the new interval with positive weights.", "quantifier": "all bounds lo < up including infinities, all x in (-1,1), all w", "why_tests_cant": "Tests never call this function; the derivative identity is for all x and all bound kinds.", "anchors": ["include/integratorxx/util/bound_transform.hpp: transform_minus_one_to_one"]}
{"id": "C11", "title": "Radial transformations are changes of variable", "statement": "For Becke, Murray-Handy-Laming, Mura-Knowles and Treutler-Ahlrichs with scale R > 0 the radial map is a strictly increasing bijection from the open base interval onto (0,infinity) and the reported Jacobian is its derivative and positive; scaling R scales radii and Jacobian linearly.", "quantifier": "all R > 0, all exponents alpha in the supported range, all x in the base interval", "why_tests_cant": "Continuum of x and R; a wrong Jacobian can pass tolerance tests for a single integrand.", "anchors": ["include/integratorxx/quadratures/radial/becke.hpp", "include/integratorxx/quadratures/radial/mhl.hpp", "include/integratorxx/quadratures/radial/muraknowles.hpp", "include/integratorxx/quadratures/radial/treutlerahlrichs.hpp"]}
{"id": "C12", "title": "Radial quadratures", "statement": "A radial quadrature with n points has exactly n radii, all finite, positive and strictly increasing, with positive weights; the i-th node and weight are the transformed base-rule node and weight times Jacobian; end nodes of a bound-inclusive base rule are never evaluated; the sum equals the base rule applied to f(r(x))r'(x).", "quantifier": "all n >= 1, all R > 0, all four schemes, all integrands f", "why_tests_cant": "Universal over n, R and integrands; end-point handling (r=0 or r=infinity) must hold for all n.", "anchors": ["include/integratorxx/quadratures/radial/radial_transform.hpp: RadialTransformQuadrature generate"]}
{"id": "C13", "title": "Radial traits compare, clone and cast", "statement": "Comparing radial traits objects is an equivalence (for comparable scale values): equal exactly when scheme, size and all parameters agree; traits of different schemes never compare equal; clone compares equal to its source and is independent of it; casting to a different scheme raises bad_cast.", "quantifier": "all pairs and triples of traits objects of all schemes and parameters", "why_tests_cant": "Universal over pairs/triples of objects; includes NaN parameters.", "anchors": ["include/integratorxx/quadratures/radial/radial_transform.hpp: RadialTraits, radial_traits_cast", "include/integratorxx/quadratures/radial/*.hpp: compare, clone, operator=="]}
{"id": "C14", "title": "Angular size/order lookups are mutually inverse", "statement": "For every angular family the order-to-size and size-to-order lookups are mutually inverse on supported values, return -1 for every other 64-bit argument, and are strictly monotone.", "quantifier": "all 64-bit integer arguments, all four families", "why_tests_cant": "2^64 arguments; tests only try the supported ones.", "anchors": ["include/integratorxx/quadratures/s2/*.hpp: npts_by_algebraic_order, algebraic_order_by_npts"]}
{"id": "C15", "title": "Next supported angular order", "statement": "next order lookup returns, for every 64-bit request, the smallest supported order not below the request, or the largest supported order when the request exceeds all; it is monotone and idempotent.", "quantifier": "all 64-bit integer arguments, all four families", "why_tests_cant": "2^64 arguments.", "anchors": ["include/integratorxx/quadratures/s2/*.hpp: next_algebraic_order"]}
{"id": "C16", "title": "Angular construction succeeds exactly for supported sizes", "statement": "Constructing an angular quadrature with a size the lookup tables support yields a grid with that many points; with any other size construction fails (README).", "quantifier": "all sizes n, all four families", "why_tests_cant": "All sizes; README promises failure for the infinitely many unsupported ones.", "anchors": ["include/integratorxx/quadratures/s2/*.hpp: quadrature_traits::generate", "README.md"]}
{"id": "C17", "title": "Tabulated angular grids are quadrature rules on the sphere", "statement": "For each supported angular size the returned points lie on the unit sphere, the weights sum to 4 pi, and every polynomial in x,y,z of degree at most the advertised algebraic order is integrated over the sphere (up to the accuracy of the tabulated decimals); weights are positive.", "quantifier": "all polynomials of degree up to the advertised order, every supported grid", "why_tests_cant": "Tests integrate a few spherical harmonics with tolerances; the claim ranges over the whole polynomial space and every table entry.", "anchors": ["include/integratorxx/quadratures/s2/lebedev_laikov/*.hpp", "include/integratorxx/quadratures/s2/delley/*.hpp", "include/integratorxx/quadratures/s2/ahrens_beylkin/*.hpp", "include/integratorxx/quadratures/s2/womersley/*.hpp"]}
{"id": "C18", "title": "Product quadrature", "statement": "The product of quadratures A and B has npts(A)*npts(B) points; its (i + j*npts(A))-th point and weight combine A's i-th and B's j-th; summing f over the product equals the iterated sum; separable integrands factorise.", "quantifier": "all pairs of quadratures, all combination operators, all integrands", "why_tests_cant": "Universal over sizes, indices and integrands.", "anchors": ["include/integratorxx/composite_quadratures/product_quadrature.hpp: generate"]}
{"id": "C19", "title": "Sub-quadrature", "statement": "A sub-quadrature over index range [b,e) contains exactly the points and weights b..e-1 in order; adjacent ranges concatenate; the construction is rejected by assertion unless b < e <= npts.", "quantifier": "all quadratures, all ranges", "why_tests_cant": "Universal over ranges.", "anchors": ["include/integratorxx/composite_quadratures/sub_quadrature.hpp: generate"]}
{"id": "C20", "title": "Spherical quadrature structure", "statement": "A spherical quadrature built from a radial rule, an angular rule and a centre has nr*na points, the (i+j*nr)-th is centre + r_i*u_j with weight w_i*v_j*r_i^2; integrals of f(|x-c|)g((x-c)/|x-c|) factorise into radial times angular sums; the distance of each point to the centre is the radius when the angular point is a unit vector.", "quantifier": "all radial and angular rules, all centres, all integrands", "why_tests_cant": "Universal over rules, centres and integrands.", "anchors": ["include/integratorxx/composite_quadratures/spherical_quadrature.hpp: generate"]}
{"id": "C21", "title": "Recentering", "statement": "Recentering to c moves every point rigidly by c minus the old centre, leaves weights unchanged, makes center() return c; the result of any sequence of recenterings equals building at the final centre (exact arithmetic); recentering to the current centre changes nothing, also in binary64.", "quantifier": "all grids, all sequences of centres", "why_tests_cant": "Histories of arbitrary length.", "anchors": ["include/integratorxx/composite_quadratures/spherical_quadrature.hpp: recenter, shift_grid"]}
{"id": "C22", "title": "Radial partitions cover every radial index exactly once", "statement": "A finalised radial partition accepted by its checks splits [0,nr) into consecutive non-empty ranges, one per angular rule, in order, without gap or overlap; iteration visits each exactly once.", "quantifier": "all sequences of add operations, all nr", "why_tests_cant": "Universal over operation sequences.", "anchors": ["include/integratorxx/composite_quadratures/pruned_spherical_quadrature.hpp: RadialGridPartition"]}
{"id": "C23", "title": "Pruned spherical quadrature", "statement": "A pruned spherical quadrature has sum over regions of (radial points in region)*(angular points of region) points; each radial shell uses exactly the angular rule of its region with weight w_i*v_j*r_i^2; if all regions use the same angular rule the grid is a permutation of the unpruned grid.", "quantifier": "all radial rules, all partitions, all angular rules, all centres", "why_tests_cant": "Universal over partitions and rules.", "anchors": ["include/integratorxx/composite_quadratures/pruned_spherical_quadrature.hpp: generate"]}
{"id": "C24", "title": "Batching never loses, duplicates or changes points", "statement": "Building a micro-batcher permutes the (point,weight) pairs of the quadrature: afterwards the batches concatenated in order are exactly a permutation of the original pairs, so every integral is unchanged (exact arithmetic).", "quantifier": "all point sets, all batch limits, any conforming std::partition", "why_tests_cant": "Depends on an unspecified library permutation and arbitrary geometry.", "anchors": ["include/integratorxx/batch/spherical_micro_batcher.hpp: generate_batches, partition_box"]}
{"id": "C25", "title": "Batch size bound and contiguity", "statement": "When batching returns, the batches are consecutive non-empty index ranges covering [0,npts), each with at most max_batch_size points.", "quantifier": "all point sets, all limits, any conforming std::partition", "why_tests_cant": "Universal over geometry and splits.", "anchors": ["include/integratorxx/batch/spherical_micro_batcher.hpp: generate_batches"]}
{"id": "C26", "title": "Batch bounding boxes", "statement": "The box returned with a batch contains all its points and is the smallest such axis-aligned box (every face touched by a point).", "quantifier": "all batches of all batchers", "why_tests_cant": "Universal over point sets.", "anchors": ["include/integratorxx/batch/spherical_micro_batcher.hpp: get_box_bounds_points, at"]}
{"id": "C27", "title": "Batching terminates", "statement": "Batching of a grid in which no more than max_batch_size points coincide terminates in exact arithmetic; it does not terminate when more points coincide (or max_batch_size = 0), and binary64 rounding can also prevent progress.", "quantifier": "all point sets, all limits, any conforming std::partition", "why_tests_cant": "Termination is a liveness property.", "anchors": ["include/integratorxx/batch/spherical_micro_batcher.hpp: generate_batches"]}
{"id": "C28", "title": "Clone independence and copy aliasing of batchers", "statement": "Changing a clone of a batcher (recentering, writing its points or weights), directly or through anything sharing with it, never changes the source or anything else that existed, and vice versa, whatever the history of operations; a plain copy shares its quadrature, so every change through one is seen through the other.", "quantifier": "all histories of construction / clone / copy / move / recenter / write / iterator operations over a heap", "why_tests_cant": "Histories of arbitrary length over shared state.", "anchors": ["include/integratorxx/batch/spherical_micro_batcher.hpp: clone, recenter, copy constructor", "include/integratorxx/composite_quadratures/spherical_quadrature.hpp: clone"]}
{"id": "C29", "title": "Batch access and iteration", "statement": "at(i) throws for every i >= nbatches and otherwise returns the box, points and weights of the i-th batch; iterating visits each batch once in order. (True below index 2^31; the cast of the index to int makes larger ones undefined behaviour.)", "quantifier": "all batchers, all indices", "why_tests_cant": "Universal over indices.", "anchors": ["include/integratorxx/batch/spherical_micro_batcher.hpp: at, begin, end, iterator"]}
{"id": "C30", "title": "Scheme names", "statement": "Scheme names are parsed case-insensitively; exactly the documented names and abbreviations are accepted, each mapping to its scheme; everything else throws. The same from quadrature classes: exactly the four radial scheme classes and the four angular classes are accepted, each mapping to its own scheme; every other class throws.", "quantifier": "all strings; all quadrature classes", "why_tests_cant": "Infinite string space.", "anchors": ["include/integratorxx/generators/impl/radial_factory.hpp: radial_from_string, radial_from_type", "include/integratorxx/generators/impl/s2_factory.hpp: angular_from_string, angular_from_type"]}
{"id": "C31", "title": "Factories build the same objects as direct construction", "statement": "Generating through a factory gives the same points and weights as constructing the scheme's quadrature directly with the same traits; traits of another scheme raise bad_cast; unknown schemes raise runtime_error.", "quantifier": "all schemes, all traits, all sizes", "why_tests_cant": "Universal over scheme/traits combinations.", "anchors": ["include/integratorxx/generators/impl/radial_factory.hpp", "include/integratorxx/generators/impl/s2_factory.hpp", "include/integratorxx/generators/impl/unpruned_grid.hpp"]}
{"id": "C32", "title": "Pruning schemes produce valid partitions", "statement": "Robust and Treutler pruning of an unpruned specification give three regions that start at 0, are contiguous, end at the radial size, and keep the base angular size in the outer region; the resulting grid generation is accepted for every radial size >= 5; inner regions never use more angular points than the base when the base order is at least 7 (robust) or 11 (Treutler).", "quantifier": "all radial sizes, all four angular families and all their sizes", "why_tests_cant": "Universal over sizes, includes off-by-one boundaries of integer division.", "anchors": ["include/integratorxx/generators/impl/robust_pruning.hpp", "include/integratorxx/generators/impl/treutler_pruning.hpp", "include/integratorxx/generators/impl/pruned_grid.hpp"]}
{"id": "C33", "title": "Grid specification equality and copying", "statement": "Equality of pruned grid specifications is an equivalence for comparable contents; a copied or assigned specification equals its source and is independent of later changes; equal specifications generate equal grids.", "quantifier": "all specifications", "why_tests_cant": "Universal over specifications.", "anchors": ["include/integratorxx/generators/spherical_factory.hpp: PruningRegion, PrunedSphericalGridSpecification"]}
{"id": "C34", "title": "Pruned generation error handling", "statement": "Generating a pruned grid with no regions or with regions of different angular families throws; otherwise region boundaries are the start indices of the regions and the last extends to the radial size.", "quantifier": "all region lists", "why_tests_cant": "Universal over region lists.", "anchors": ["include/integratorxx/generators/impl/pruned_grid.hpp: generate_pruned_grid"]}
{"id": "C35", "title": "Exact mirror symmetry in floating point", "statement": "The mirrored rules (Chebyshev 1st, 2nd, modified, Legendre, Lobatto) are exactly antisymmetric in nodes and symmetric in weights in binary64 arithmetic, whatever the accuracy of the math library, so every odd integrand's paired contributions cancel exactly.", "quantifier": "all n, all math-library behaviours", "why_tests_cant": "Holds for every n and any libm.", "anchors": ["include/integratorxx/quadratures/primitive/gausschebyshev1.hpp", "include/integratorxx/quadratures/primitive/gausschebyshev2.hpp", "include/integratorxx/quadratures/primitive/gausschebyshev2modified.hpp", "include/integratorxx/quadratures/primitive/gausslegendre.hpp", "include/integratorxx/quadratures/primitive/gausslobatto.hpp"]}
{"id": "C36", "title": "Floating-point trapezoid nodes", "statement": "In binary64 the uniform rule's first node is exactly lo, its nodes are non-decreasing, and its last node is exactly up.", "quantifier": "all n >= 2, all binary64 bounds without overflow", "why_tests_cant": "Rounding behaviour over all n and bounds.", "anchors": ["include/integratorxx/quadratures/primitive/uniform.hpp: generate"]}
{"id": "C37", "title": "Rotation and permutation invariance of grid integrals", "statement": "Integrals over any grid do not depend on the order in which pruning, batching or factory construction arrange the points (exact arithmetic): unpruned grid, pruned grid with uniform angular rule, and batched versions of either yield the same sum for every integrand.", "quantifier": "all grids, all integrands, all batch limits", "why_tests_cant": "Universal over integrands and compositions of features.", "anchors": ["include/integratorxx/composite_quadratures/*.hpp", "include/integratorxx/batch/spherical_micro_batcher.hpp"]}
{"id": "C38", "title": "Pruned grids without assertions", "statement": "In a build without assertions, building a RadialGridPartition from any list of (start index, angular rule) pairs and a pruned grid from it is well defined exactly when the list is non-empty, the start indices are non-decreasing and the last one is below the number of radial points; the grid then consists of the shells of the ranges between consecutive indices, and in every other case the program has undefined behaviour. For both pruning schemes of the factory this means undefined behaviour below three radial points and a grid of the specified region sizes from three points on.", "quantifier": "all radial and angular rules of any size, all index lists, all centres, every scalar type; both schemes, all radial schemes, sizes and angular families", "why_tests_cant": "Undefined behaviour may go unnoticed in a run, and tests cover a few sizes in one build mode only.", "anchors": ["include/integratorxx/composite_quadratures/pruned_spherical_quadrature.hpp:34-50", "include/integratorxx/composite_quadratures/pruned_spherical_quadrature.hpp:82-148", "include/integratorxx/composite_quadratures/pruned_spherical_quadrature.hpp:262-307", "include/integratorxx/composite_quadratures/sub_quadrature.hpp:40-70", "include/integratorxx/generators/impl/pruned_grid.hpp:15-57"]}
{"id": "C39", "title": "Moved batchers and batch iterators", "statement": "Moving a batcher transfers its quadrature and batches unchanged, leaves all other batchers and all iterators valid, and leaves a source on which every access is undefined behaviour. An iterator stays a live view: after any program of operations it shows the batch at its position of the batcher's current owner. The loop from begin() to end() collects every batch once, in order. 'it + d' advances 'it' itself, contrary to what the notation suggests.", "quantifier": "all histories of batcher and iterator operations over a heap, all positions", "why_tests_cant": "Histories of arbitrary length over shared state, and undefined behaviour that a run may not show.", "anchors": ["include/integratorxx/batch/spherical_micro_batcher.hpp:252-388", "include/integratorxx/batch/spherical_micro_batcher.hpp:450-466", "include/integratorxx/batch/spherical_micro_batcher.hpp:483-484"]}
{"id": "C40", "title": "Spherical grids converge to the integral over space", "statement": "Take a spherical product grid built from any of the four radial schemes and an angular rule with the accuracy proved for the repository's tables. For a function that on every sphere around the centre is a combination of spherical harmonics of degree within the angular order, with tame radial coefficients, the grid value differs from the radial rule applied to the exact integrals over the spheres by at most an explicit bound, and as the radial size grows it gets within that (integrated) bound of the integral over space. For radial functions the same holds of the grids the factory builds from the repository's Lebedev-Laikov and Delley data.", "quantifier": "all radial sizes, all four schemes, all admissible angular sizes, all tame integrands", "why_tests_cant": "A limit in the number of points and a statement over all integrands of a class.", "anchors": ["include/integratorxx/composite_quadratures/spherical_quadrature.hpp", "include/integratorxx/quadratures/radial/", "include/integratorxx/quadratures/s2/", "include/integratorxx/generators/impl/unpruned_grid.hpp"]}
{"id": "C41", "title": "Spherical grids and recentering in binary64", "statement": "In binary64 arithmetic, every finite coordinate of a built spherical grid is r*x + c within one rounding of the result and two of the product, and every finite weight is w*v*r^2 within relative 4*2^-53 unless an intermediate underflows. After any sequence of k recenterings the weights are unchanged, the centre is the last one, and every finite coordinate has moved by the difference of the centres up to ((1+2^-53)^k - 1) times the size of the coordinates involved; so a grid that is built and then moved k times stays that close to the exact grid around its last centre. Moving away and back is not the identity, and distinct points may coincide afterwards.", "quantifier": "all radial and angular rules of any size, all centres, recentering sequences of any length, every math library", "why_tests_cant": "Error accumulation over arbitrarily long histories, for all bit patterns.", "anchors": ["include/integratorxx/composite_quadratures/spherical_quadrature.hpp:11-23", "include/integratorxx/composite_quadratures/spherical_quadrature.hpp:55-75", "include/integratorxx/composite_quadratures/spherical_quadrature.hpp:185-250"]}
{"id": "C42", "title": "Gauss-Chebyshev rules in binary64", "statement": "If the math library's cos and sin are within d of the exact values, every node that the first-kind, second-kind, modified second-kind and third-kind Gauss-Chebyshev generators store is finite and within a small multiple of d and 2^-53 of the exact node, and the weights satisfy an explicit bound that degrades like 1/(1-x^2) for the first two and like 1/(sqrt x (1-x)) for the third (as long as the number of points times the accuracy is small, which also excludes NaN weights). Sums of bounded Lipschitz functions over the stored rule differ from the exact rule's by at most a logarithm of the number of nodes times these errors. Up to 2^20 nodes the stored first-, second- and third-kind rules keep strictly increasing nodes inside the open interval and positive weights; for some larger size they do not.", "quantifier": "all numbers of points up to 2^52 - 1, all libraries of accuracy d, all integrands of the class", "why_tests_cant": "All sizes, all conforming math libraries, and a real-analysis comparison with exact nodes.", "anchors": ["include/integratorxx/quadratures/primitive/gausschebyshev1.hpp", "include/integratorxx/quadratures/primitive/gausschebyshev2.hpp", "include/integratorxx/quadratures/primitive/gausschebyshev2modified.hpp", "include/integratorxx/quadratures/primitive/gausschebyshev3.hpp"]}
{"id": "C43", "title": "Radial rules in binary64", "statement": "If cos, sin, pow and log of the math library have accuracy d, every radius and weight that the Becke, Mura-Knowles, Murray-Handy-Laming and Treutler-Ahlrichs generators store in binary64 has an explicit small relative error against the rule in exact arithmetic (growing like n^2 for Becke and Treutler-Ahlrichs, n for Murray-Handy-Laming, n^3 for the Mura-Knowles radii and n for its weights), the stored radii are positive and strictly increasing and the stored weights positive, and sums of integrands with an envelope change by the same relative amount. For Mura-Knowles with 2^18 points or more the first stored radius is zero.", "quantifier": "all sizes up to the stated limits, all scales between 2^-100 and 2^100, all exponents in the stated ranges, all libraries of accuracy d", "why_tests_cant": "All sizes and parameters, all conforming math libraries, and a real-analysis comparison with exact radii and weights.", "anchors": ["include/integratorxx/quadratures/radial/becke.hpp", "include/integratorxx/quadratures/radial/mhl.hpp", "include/integratorxx/quadratures/radial/muraknowles.hpp", "include/integratorxx/quadratures/radial/treutlerahlrichs.hpp", "include/integratorxx/quadratures/radial/radial_transform.hpp"]}
{"id": "C44", "title": "Whole spherical grids in binary64", "statement": "The decimal literals of the angular data files are stored as the nearest binary64 numbers, and the angular rule of every family and size is stored with relative error 2^-53 in each coordinate and 4.1*2^-53 in each weight, zero coordinates exactly. If cos, sin, pow and log of the math library have accuracy d, every grid the factory builds in binary64 - unpruned, with explicit regions, or with a named pruning scheme, in debug and release builds - has as many nodes as the grid in exact arithmetic, in the same order, every coordinate has relative error at most 1.01 times that of the radii plus 3*2^-53 and every weight at most 1.01 times that of the radial weights and squared radii plus 9*2^-53. So sums of integrands with an envelope over the stored grid differ from sums over the exact grid by that relative amount.", "quantifier": "all radial schemes with parameters in the stated ranges, all angular families and sizes (Womersley up to 513 points), all region lists the partition accepts, all pruning schemes with at least 5 radial points, all libraries of accuracy d, all integrands of the class", "why_tests_cant": "All scheme parameters and region lists, all conforming math libraries, all data files, compared with the exact real grid rather than with stored reference values.", "anchors": ["include/integratorxx/composite_quadratures/spherical_quadrature.hpp:185-250", "include/integratorxx/composite_quadratures/pruned_spherical_quadrature.hpp:262-307", "include/integratorxx/generators/impl/unpruned_grid.hpp", "include/integratorxx/generators/impl/pruned_grid.hpp", "include/integratorxx/quadratures/s2/"]}
{"id": "C45", "title": "The Gauss-Legendre rule in binary64", "statement": "For fewer than 16384 points and a cosine accurate to d with d (n+1)^2 <= 1/2000: whenever the binary64 construction does not end with the exception for a missing convergence, every stored node and weight is finite, the nodes are strictly increasing and strictly inside (-1,1), the weights are positive, every node is within 16 sqrt(n+1) 2^-53 of the node of the Gauss rule, and every weight has relative error at most 200 (n+1)^(5/2) 2^-53. So the stored rule integrates polynomials of degree at most 2n-1, bounded by K with derivative bounded by L, up to (400 (n+1)^2 K + 32 L) sqrt(n+1) 2^-53.", "quantifier": "all numbers of points below 16384, all math libraries with a cosine of accuracy d, all polynomials and differentiable integrands", "why_tests_cant": "All sizes and all conforming math libraries; the tests compare the moments of a few sizes with a tolerance, on one library.", "anchors": ["include/integratorxx/quadratures/primitive/gausslegendre.hpp:43-103", "include/integratorxx/util/legendre.hpp"]}
{"id": "C46", "title": "The Gauss-Lobatto rule in binary64", "statement": "For 2 to 16384 points and a cosine accurate to d with d n^2 <= 1/2000: whenever the binary64 construction does not end with the exception for a missing convergence, every stored node and weight is finite, the nodes are strictly increasing with first node exactly -1 and last node exactly 1, the weights are positive, every node is within 24 sqrt(n) 2^-53 of the node of the Lobatto rule, and every weight has relative error at most 45 n^(5/2) 2^-53. So the stored rule integrates polynomials of degree at most 2n-3, bounded by K with derivative bounded by L, up to (90 n^2 K + 48 L) sqrt(n) 2^-53.", "quantifier": "all numbers of points from 2 to 16384, all math libraries with a cosine of accuracy d, all polynomials and differentiable integrands", "why_tests_cant": "All sizes and all conforming math libraries; the tests compare the moments of a few sizes with a tolerance, on one library.", "anchors": ["include/integratorxx/quadratures/primitive/gausslobatto.hpp:33-109"]}
{"id": "C47", "title": "Lifetimes of batchers, shared quadratures and iterators", "statement": "A program that uses only existing batchers, iterators of existing batchers and quadratures still held by the caller never touches destroyed memory, and behaves exactly as the same program without any destruction; the first operation that breaks this rule is undefined behaviour. The use count of a quadrature is the number of existing batchers sharing it plus one while the caller holds it; the quadrature lives exactly that long, and nothing is left when all owners are gone. Destroying one batcher changes nothing for the others. An iterator is usable exactly as long as the batcher it belongs to (following moves) exists: a copy that keeps the quadrature does not keep the iterators of the original.", "quantifier": "all programs of construction, copy, move, clone, recentering, writing, iteration and destruction, all scalars", "why_tests_cant": "Histories of arbitrary length; use of destroyed memory is undefined behaviour that a run may not show.", "anchors": ["include/integratorxx/batch/spherical_micro_batcher.hpp:246-249", "include/integratorxx/batch/spherical_micro_batcher.hpp:263-265", "include/integratorxx/batch/spherical_micro_batcher.hpp:395-405", "include/integratorxx/batch/spherical_micro_batcher.hpp:450-489"]}
{"id": "C48", "title": "Angular rules integrate polynomials, as stored in binary64", "statement": "The angular rule the library builds integrates every polynomial of degree d up to the advertised order over the unit sphere: the sum of weight times the polynomial at the stored node differs from the surface integral by at most tau (d+1)^2 times the sum of the absolute coefficients, with tau = 2e-13 for Lebedev-Laikov, Delley and Womersley (6e-13 for the 230-point Lebedev-Laikov grid, whose weights partly cancel) and 3e-11 for Ahrens-Beylkin; both with the literals read exactly and with the points and weights as rounded to binary64. For every Lebedev-Laikov and Delley grid, Ahrens-Beylkin up to 612 points except 552, Womersley up to 222 points.", "quantifier": "all polynomials up to the advertised order, all listed grids, debug and release builds, any math library", "why_tests_cant": "Infinitely many polynomials; the nodes are only near the sphere, where polynomials that agree on it differ.", "anchors": ["include/integratorxx/quadratures/s2/lebedev_laikov.hpp", "include/integratorxx/quadratures/s2/delley.hpp", "include/integratorxx/quadratures/s2/ahrens_beylkin.hpp", "include/integratorxx/quadratures/s2/womersley.hpp"]}
{"id": "C49", "title": "Whole grids applied to a polynomial times a function of the distance", "statement": "A grid made by the factory (unpruned, pruned with explicit regions, or by one of the three pruning schemes), recentred any number of times to a last centre c, applied to g(|p-c|) P(p-c) with P a polynomial whose degree d every angular rule of the grid supports: the sum differs from the radial rule applied to the exact integrals over the spheres by at most the radial rule of r^2 2 tau (d+1)^2 |P|(r) G(r), where G bounds g and its relative changes, |P|(r) is the sum of the absolute terms of P at distance r and tau is the constant of C48. As the number of radial points grows the sum approaches the integral over space up to the integral of that term. In binary64 with an accurate math library the sum over the stored points and weights satisfies the same bound enlarged by the rounding errors of points and weights.", "quantifier": "all radial schemes and parameters, all pruning schemes and accepted region lists, all checked angular grids, all centres and sequences of recentering, all polynomials and radial functions with an envelope", "why_tests_cant": "Infinitely many integrands and parameters; the statement is about the exact integral over space and a limit.", "anchors": ["include/integratorxx/generators/impl/impl.hpp", "include/integratorxx/generators/spherical_factory.hpp", "include/integratorxx/composite_quadratures/spherical_quadrature.hpp", "include/integratorxx/composite_quadratures/pruned_spherical_quadrature.hpp"]}
{"id": "C50", "title": "Grid specifications own their radial traits", "statement": "Whatever a program does with grid specification objects (construct, adopt a pointer, copy, assign also to itself, move or replace the traits pointer, write through it, change members, compare, prune, generate, destroy, catching all exceptions), it sees exactly what it would see if each object held its traits as a plain value: no traits object is deleted twice, used after deletion or shared, none is leaked, also when a call raises, and no operation changes what an object it does not write to shows. Generating from a specification without traits raises std::runtime_error. Finding: not so for a default-initialised pruned specification, whose radial_quad is indeterminate: copying, comparing or passing it is undefined.", "quantifier": "all finite sequences of operations over any number of specification objects, all traits and members, all data sets, builds and scalar types", "why_tests_cant": "Aliasing and lifetime errors depend on the sequence of operations; there are infinitely many, and double deletion or reads of indeterminate members need not show in a test.", "anchors": ["include/integratorxx/generators/spherical_factory.hpp", "include/integratorxx/generators/impl/pruned_grid.hpp", "include/integratorxx/generators/impl/robust_pruning.hpp", "include/integratorxx/generators/impl/treutler_pruning.hpp", "include/integratorxx/quadratures/radial/radial_transform.hpp"]}
{"id": "C51", "title": "Batching in double precision ends for points that are not neighbours", "statement": "In binary64, with coordinates of magnitude at most 2^900, building a micro-batcher ends after at most npts sweeps, permutes the points and makes batches of one to max_batch_size points, whenever at most max_batch_size points are so close together that no two of them have a binary64 number strictly between them in some coordinate; in particular for every limit when the points are pairwise separated by 2^-50 relative plus 2^-1070. Findings: neighbouring distinct points are never parted, and neither are two finite points whose extent overflows, however far from each other: construction then never ends.", "quantifier": "all finite sets of binary64 points, all limits, any conforming std::partition, any libm", "why_tests_cant": "Termination depends on the rounding of every cut of every box, including subnormal extents; the exceptions are measure zero and never met by sample grids.", "anchors": ["include/integratorxx/batch/spherical_micro_batcher.hpp: generate_batches, partition_box, get_box_bounds"]}
{"id": "C52", "title": "Grids are symmetric", "statement": "Every Lebedev-Laikov and Delley grid is carried to itself by all 48 permutations and sign changes of the axes, every Ahrens-Beylkin grid by the 12 rotations of the tetrahedron, each point keeping its weight. Product and pruned grids of the factory inherit this: in binary64, about the origin, bit for bit up to signs of zeros and for any math library; in exact arithmetic about the current centre after any history of recentring. Sums over the stored points therefore do not change when the integrand is moved by a symmetry, and vanish for integrands that change sign. Findings: Ahrens-Beylkin grids are not symmetric under point reflection; in binary64 a grid about a centre other than the origin need not be symmetric about it.", "quantifier": "all families but Womersley, all sizes (supported or not), all radial schemes, traits and region lists, all 48 maps, all integrands, all math libraries, all recentring histories", "why_tests_cant": "Tests integrate a few functions to a tolerance; a sign or coordinate slip in one orbit of one table shifts a few integrals slightly and exact cancellation of all odd integrands is never checked.", "anchors": ["include/integratorxx/quadratures/s2/lebedev_laikov.hpp", "include/integratorxx/quadratures/s2/lebedev_laikov/*.hpp", "include/integratorxx/quadratures/s2/delley.hpp", "include/integratorxx/quadratures/s2/ahrens_beylkin.hpp", "include/integratorxx/composite_quadratures/spherical_quadrature.hpp", "include/integratorxx/composite_quadratures/pruned_spherical_quadrature.hpp", "include/integratorxx/generators/impl/pruned_grid.hpp"]}
{"id": "C53", "title": "Radial partitions as objects", "statement": "From any contents of a RadialGridPartition and any radial grid, generating a pruned grid gives exactly the shells of the ranges between neighbouring indices when there is one more index than angular rules and every range fits; a range that does not fit is caught by an assertion, undefined without assertions; a wrong number of indices is undefined behaviour in both builds. add_quad and finalize called in any order with one radial grid either fail an assertion, or make the object the constructor makes from the same pairs, or (never finalised) an object that must not be used. In debug builds every grid generated by any program over partition variables that passes radial grids of one size has every shell. Findings: a partition made for fewer radial points than the grid it is used with silently drops the outer shells.", "quantifier": "all contents of the object, all call sequences and programs with copies, moves and assignments, all scalars, both builds", "why_tests_cant": "Tests build partitions one way, through the constructor, and use them with the grid they were made for.", "anchors": ["include/integratorxx/composite_quadratures/pruned_spherical_quadrature.hpp: RadialGridPartition, PrunedSphericalQuadrature::generate"]}
{"id": "C54", "title": "Error of the Gauss-type rules for integrands that are not polynomials", "statement": "For a bounded Lipschitz integrand on [-1,1], the Gauss-Legendre rule as stored in binary64 misses the integral by at most four times the distance to any polynomial of degree 2n-1, plus an explicit multiple of the rounding unit; hence by 8M/(2^(2n)(2n)!) for integrands with 2n derivatives, the last bounded by M, and by 4L/sqrt(2n-1) for a Lipschitz constant L only, plus the same rounding term. The same for the stored Gauss-Lobatto rule with degree 2n-3. In exact arithmetic the Gauss-Chebyshev rules of the first, second and third kind, each with its weight function, obey the corresponding bounds for smooth integrands, and all five rules converge to the integral of every continuous integrand.", "quantifier": "all integrands with the stated regularity, all polynomials of the stated degree, all numbers of points (below 16384 where binary64 is involved), all libraries of sufficient accuracy", "why_tests_cant": "Tests integrate a few functions with a few sizes; the rate of convergence, and convergence at all, are statements about every integrand and every size.", "anchors": ["include/integratorxx/quadratures/primitive/gausslegendre.hpp: generate", "include/integratorxx/quadratures/primitive/gausslobatto.hpp: generate", "include/integratorxx/quadratures/primitive/gausschebyshev1.hpp: generate", "include/integratorxx/quadratures/primitive/gausschebyshev2.hpp: generate", "include/integratorxx/quadratures/primitive/gausschebyshev3.hpp: generate"]}
{"id": "C55", "title": "Angular rules and whole grids applied to functions that are not polynomials", "statement": "For a function near the unit sphere with bound K, Lipschitz constant L and distance e to a polynomial of degree d, every angular rule of order at least d misses the integral over the sphere by at most (W+13)e plus the table tolerance times ((d+1)^2 (K+e) + 4L), where W bounds the sum of the absolute weights; the same with points and weights as stored in binary64. Unpruned grids, pruned grids and the pruning schemes, recentred any number of times, then equal the radial rule applied to exact integrals over spheres up to the radial rule applied to that bound, and with many radial points they approach the integral over space up to the integral of that bound.", "quantifier": "all functions with the stated bounds on every sphere, all polynomials of the stated degree, all families and sizes whose tables are checked, all radial schemes and parameters, all centres", "why_tests_cant": "Tests integrate spherical harmonics and a Gaussian; the error for a general function depends on how well polynomials approximate it, which no list of functions settles.", "anchors": ["include/integratorxx/quadratures/s2/lebedev_laikov.hpp: generate", "include/integratorxx/quadratures/s2/delley.hpp: generate", "include/integratorxx/quadratures/s2/ahrens_beylkin.hpp: generate", "include/integratorxx/quadratures/s2/womersley.hpp: generate", "include/integratorxx/composite_quadratures/spherical_quadrature.hpp", "include/integratorxx/composite_quadratures/pruned_spherical_quadrature.hpp", "src/spherical_factory.cxx"]}
{"id": "C56", "title": "Interval transformation in binary64", "statement": "With bounds, node and weight given as doubles, transform_minus_one_to_one selects the case its bounds call for, and its node and weight are within explicit rounding bounds of the exact ones: absolute for finite bounds, relative to the size of the terms for a half-infinite interval; it keeps nodes in order unless both bounds are infinite, and on a half-infinite interval it never crosses the finite bound. Findings: on (-inf, inf) the weights keep only half of the digits near the ends, nodes can change order and lose symmetry; on finite intervals a node inside (-1,1) can leave the interval, and bounds far apart overflow to a NaN node; nodes at the ends give infinite nodes and weights at infinite bounds.", "quantifier": "all binary64 bounds (up to 2^800 where finite), nodes and weights, both builds", "why_tests_cant": "No test calls the function; rounding behaviour over all bounds and nodes cannot be enumerated.", "anchors": ["include/integratorxx/util/bound_transform.hpp: transform_minus_one_to_one"]}
{"id": "C57", "title": "Trapezoid rule as stored in binary64", "statement": "For 2 <= n <= 2^53 points and bounds lo < up of moderate size, every stored node and weight of the uniform rule is finite and within an explicit rounding bound of the exact node and weight, weights are non-negative and sum to up-lo up to rounding, the weighted sum is within an explicit bound of the rule in exact arithmetic and of the integral (twice differentiable or Lipschitz integrands), and nodes strictly increase with positive weights whenever the step exceeds twice the rounding drift. Findings: coinciding nodes, all-zero weights on underflow, a last node above up, and NaN nodes with infinite weights for finite bounds that are too far apart.", "quantifier": "all n, all binary64 bounds, all bounded Lipschitz integrands", "why_tests_cant": "Tests use one interval and one size; rounding bounds over all bounds, sizes and integrands cannot be enumerated.", "anchors": ["include/integratorxx/quadratures/primitive/uniform.hpp: UniformTrapezoid generate"]}
{"id": "C58", "title": "Rates of the radial, trapezoid and Chebyshev-type rules", "statement": "The trapezoid rule has error at most (up-lo) M ((up-lo)/(2(n-1)))^N on integrands with N derivatives whose odd derivatives below N agree at both ends, also as stored up to an explicit rounding term. Gauss-Chebyshev of the second kind and its modified form are of second order on plain twice differentiable integrands and of order N when odd derivatives in the angle match. The radial maps carry the half-line integral to the base interval; Becke and Treutler-Ahlrichs rules are exact when the integrand pulls back to a polynomial of degree 2n-1 times sqrt(1-x^2), as good as the best polynomial approximation, and have the classical rate for smooth factors and algebraic rates otherwise; Murray-Handy-Laming and Mura-Knowles rules have second and higher order. Stored radial rules and whole pruned grids, exact and stored, inherit the rate plus explicit angular and rounding terms.", "quantifier": "all n, all scales, all integrands with the stated derivatives, all centres and pruning schemes", "why_tests_cant": "Tests compare a few integrals to fixed tolerances at fixed sizes; a rate with an explicit constant is a statement about every size and every integrand.", "anchors": ["include/integratorxx/quadratures/primitive/uniform.hpp: generate", "include/integratorxx/quadratures/primitive/gausschebyshev2.hpp: generate", "include/integratorxx/quadratures/primitive/gausschebyshev2modified.hpp: generate", "include/integratorxx/quadratures/radial/radial_transform.hpp: generate", "include/integratorxx/quadratures/radial/becke.hpp", "include/integratorxx/quadratures/radial/mhl.hpp", "include/integratorxx/quadratures/radial/muraknowles.hpp", "include/integratorxx/quadratures/radial/treutlerahlrichs.hpp"]}
{"id": "C59", "title": "Stored grids recentred any number of times", "statement": "A binary64 spherical grid recentred along any list of centres of size at most 2^900 keeps finite coordinates; without the bound this is false (a coordinate becomes infinite and stays so after returning to the first centre). After k moves every coordinate of a stored unpruned, pruned or scheme-pruned grid is within (point error + 8 k 2^-53)(distance from the centre + D) of that of the exact grid at the last centre, D bounding the centres' distances, and every weight keeps its relative error. Sums over the stored grid therefore differ from the exact recentred sums, and from the integral over space, by explicit bounds.", "quantifier": "all sizes, scales, pruning schemes, lists of centres up to 2^900, integrands with tempered growth", "why_tests_cant": "Tests recentre once or twice with small centres and exact arithmetic in mind; drift over arbitrarily many moves and the overflow boundary are statements about all histories.", "anchors": ["include/integratorxx/composite_quadratures/spherical_quadrature.hpp: recenter", "include/integratorxx/composite_quadratures/pruned_spherical_quadrature.hpp: generate", "include/integratorxx/generators/impl/impl.hpp"]}
{"id": "C60", "title": "Stored Gauss rules on intervals and half lines", "statement": "A binary64 Gauss-Legendre or Gauss-Lobatto rule sent pair by pair through the interval transformation to finite bounds stays finite and integrates over [lo,up] with error at most the classical bound 8 M h^(2n+1)/(2^(2n) (2n)!) (resp. the Lobatto one), h half the length, plus explicit rounding terms; Lipschitz integrands with error 4 L h^2/sqrt(2n-1). On [lo,infinity) a Gauss-Legendre rule integrates functions decaying like r^-2 up to four times the distance of the pulled-back integrand from polynomials of degree 2n-1 plus rounding. On (-infinity,up] it approximates minus the integral. Lobatto rules get an infinite node and weight on half lines.", "quantifier": "all n below 16384, all finite bounds up to 2^800 (half lines 2^40), all integrands with the stated regularity, every accurate math library", "why_tests_cant": "The transformation has no test and no caller in the repository; error bounds hold for all sizes, bounds and integrands at once.", "anchors": ["include/integratorxx/util/bound_transform.hpp: transform_minus_one_to_one", "include/integratorxx/quadratures/primitive/gausslegendre.hpp: generate", "include/integratorxx/quadratures/primitive/gausslobatto.hpp: generate"]}
{"id": "C61", "title": "Stored Gauss rules on the whole real line", "statement": "A binary64 Gauss-Legendre rule sent pair by pair through the interval transformation to (-infinity,infinity) stays finite. For an integrand whose changes fall off like the third power it approximates the improper integral up to four times the distance of the integrand, written in the variable of [-1,1], from polynomials of degree 2n-1, plus rounding terms of order n^2 sqrt(n) 2^-53: the loss of half of the digits near the ends does not reach Gauss nodes. The symmetric two-point rule loses its symmetry and does not sum odd integrands to zero. Lobatto rules get an infinite node and an infinite weight.", "quantifier": "all n below 16384, all integrands with the stated decay, every accurate math library", "why_tests_cant": "The transformation has no test and no caller in the repository; the bound holds for all sizes and integrands at once, and the asymmetry is one unit in the last place.", "anchors": ["include/integratorxx/util/bound_transform.hpp: transform_minus_one_to_one", "include/integratorxx/quadratures/primitive/gausslegendre.hpp: generate", "include/integratorxx/quadratures/primitive/gausslobatto.hpp: generate"]}
{"id": "C62", "title": "Stored Gauss-Chebyshev rules of the second kind on finite intervals", "statement": "A binary64 Gauss-Chebyshev rule of the second kind sent pair by pair through the interval transformation to [lo,up] stays finite, and for twice differentiable integrands its sum differs from the integral over [lo,up] by at most a term of order 1/(n+1)^2 with explicit constants plus rounding terms that grow with the logarithm of the number of points.", "quantifier": "all n from 1 to 2^20, all finite bounds lo < up of moderate size, all twice differentiable integrands, every math library accurate to 2^-50", "why_tests_cant": "The transformation has no test and no caller in the repository; the bound holds for all sizes, bounds and integrands at once.", "anchors": ["include/integratorxx/util/bound_transform.hpp: transform_minus_one_to_one", "include/integratorxx/quadratures/primitive/gausschebyshev2.hpp: generate"]}
