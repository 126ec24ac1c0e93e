{"id": "C01", "title": "Cartesian component enumeration is complete and exact", "statement": "For every angular momentum L >= 0, the component list attached to a new shell contains every exponent triple (r,s,t) of non-negative integers with r+s+t = L exactly once and nothing else; its length is (L+1)(L+2)/2, which is also what libgrpp_get_shell_size returns, and exactly 3 integers per component are written into a buffer of exactly that size.", "quantifier": "every L >= 0, both built-in component orders", "why_tests_cant": "Matrix rows and columns are addressed through this list for every L; a test sees only the few L values it runs, and a duplicated or missing triple at a larger L silently corrupts integrals.", "anchors": ["libgrpp/parameters.c:cartesian_generator_dirac", "libgrpp/parameters.c:cartesian_generator_turbomole", "libgrpp/shell.c:libgrpp_new_shell", "libgrpp/shell.c:libgrpp_get_shell_size"]}
{"id": "C02", "title": "The two selectable Cartesian orders coincide", "statement": "Selecting LIBGRPP_CART_ORDER_DIRAC or LIBGRPP_CART_ORDER_TURBOMOLE yields, for every L, the same list in the same order, so the choice can never change the position of any integral in any returned matrix.", "quantifier": "every L >= 0", "why_tests_cant": "The two generators are different loop nests; agreement has to hold for every L, not for sampled ones.", "anchors": ["libgrpp/parameters.c:cartesian_generator_dirac", "libgrpp/parameters.c:cartesian_generator_turbomole", "libgrpp/parameters.c:libgrpp_set_cartesian_order"]}
{"id": "C03", "title": "Exponent triple to matrix index lookup is the inverse of the component list", "statement": "When gradient blocks are assembled, looking up a triple (n,l,m) in a shell's component list returns the unique position at which that triple stands; for a triple that is not in the list (a negative exponent) it returns the list length, i.e. an index one past the end.", "quantifier": "every L, every integer triple", "why_tests_cant": "The lookup is used for all pairs of components in all gradient matrices.", "anchors": ["libgrpp/overlap_gradient.c:nlm_to_linear"]}
{"id": "C04", "title": "Binomial coefficients are exact or flagged, never silently wrong", "statement": "For all 64-bit unsigned n and k the binomial routine terminates and returns either C(n,k) or 0; it returns exactly C(n,k) whenever C(n,k) + n fits in 64 bits, and 0 for k > n.", "quantifier": "all n, k in [0, 2^64)", "why_tests_cant": "2^128 input pairs; the wraparound guard only triggers near 2^64.", "anchors": ["libgrpp/binomial.c:binomial", "libgrpp/binomial.c:gcd_ui"]}
{"id": "C05", "title": "Factorials, factorial ratios and double factorials", "statement": "In exact arithmetic factorial(n) = n! for n >= 0 and 1 for n < 0, factorial_ratio(n,m) = n!/m!, double_factorial(n) = n!! for -1 <= n <= 30 and the process aborts for every other n; the tabulated constants are exactly the values of these functions.", "quantifier": "all integer n (and m)", "why_tests_cant": "Domain edges and the table/recursion seam must agree for every n.", "anchors": ["libgrpp/factorial.c:factorial", "libgrpp/factorial.c:factorial_ratio", "libgrpp/factorial.c:double_factorial"]}
{"id": "C06", "title": "Shell objects own independent copies of the caller's data", "statement": "After libgrpp_new_shell or libgrpp_shell_deep_copy, no later write to the caller's coefficient/exponent/origin buffers or to the original shell changes the shell; deleting a shell releases exactly the blocks its construction allocated, and deleting a copy leaves the original usable.", "quantifier": "every shell, every later history of writes and deletions", "why_tests_cant": "Aliasing bugs show only under particular later histories.", "anchors": ["libgrpp/shell.c:libgrpp_new_shell", "libgrpp/shell.c:libgrpp_shell_deep_copy", "libgrpp/shell.c:libgrpp_delete_shell"]}
{"id": "C07", "title": "Shrinking a shell drops exactly the negligible primitives", "statement": "libgrpp_shell_shrink keeps, in the original order, precisely the primitives whose |coefficient| exceeds 1e-14, never changes exponents attached to kept coefficients, is idempotent, and changes the contracted function at any point by at most (number of dropped primitives) * 1e-14 times the largest primitive value.", "quantifier": "every coefficient/exponent list", "why_tests_cant": "In-place compaction errors depend on the pattern of dropped entries.", "anchors": ["libgrpp/shell.c:libgrpp_shell_shrink"]}
{"id": "C08", "title": "Constructing or shrinking a potential preserves its radial function", "statement": "libgrpp_new_potential keeps exactly the terms with |c| >= 1e-14 in order, libgrpp_shrink_potential keeps exactly those with |c| > 1e-14; the value libgrpp_potential_value at any radius equals the sum c r^(n-2) exp(-a r^2) of the kept terms and differs from the full sum by at most 1e-14 times the sum of the dropped terms' radial factors.", "quantifier": "every term list, every radius r", "why_tests_cant": "Quantifies over all expansions and radii.", "anchors": ["libgrpp/potential.c:libgrpp_new_potential", "libgrpp/potential.c:libgrpp_shrink_potential", "libgrpp/potential.c:libgrpp_potential_value"]}
{"id": "C09", "title": "GRPP ownership protocol is memory safe and leak free", "statement": "For every history of libgrpp_new_grpp, set-local, add-averaged, add-spin-orbit, add-outercore calls that hands over pairwise distinct live objects and at most 100 of each kind, followed by libgrpp_delete_grpp, no freed block is accessed, none is freed twice, no write leaves its block, and at the end exactly the blocks that were live before the history (minus the handed-over objects) are live. Destroying a null potential or container changes nothing (a null shell is not accepted).", "quantifier": "every call history of any length", "why_tests_cant": "Needs all histories; leak and double free are only visible on particular orders.", "anchors": ["libgrpp/grpp.c:libgrpp_new_grpp", "libgrpp/grpp.c:libgrpp_grpp_set_local_potential", "libgrpp/grpp.c:libgrpp_grpp_add_averaged_potential", "libgrpp/grpp.c:libgrpp_grpp_add_outercore_potential", "libgrpp/grpp.c:libgrpp_delete_grpp"]}
{"id": "C10", "title": "Capacity of a GRPP object", "statement": "Adding any number of averaged, spin-orbit or outercore potentials to a GRPP object is memory safe.", "quantifier": "every number of additions", "why_tests_cant": "There is no bound check; tests never add more than a few.", "anchors": ["libgrpp/grpp.c:libgrpp_grpp_add_averaged_potential", "libgrpp/grpp.c:libgrpp_grpp_add_spin_orbit_potential", "libgrpp/grpp.c:libgrpp_grpp_add_outercore_potential"]}
{"id": "C11", "title": "Re-setting the same local potential", "statement": "Calling set-local with the potential that is already installed leaves the GRPP object usable and deletable.", "quantifier": "every GRPP state", "why_tests_cant": "Needs the particular history set(p); set(p).", "anchors": ["libgrpp/grpp.c:libgrpp_grpp_set_local_potential"]}
{"id": "C12", "title": "Concurrent initialisation builds the tables once and completely", "statement": "For every interleaving of any number of threads calling libgrpp_init, the tables are built exactly once, every thread returns from libgrpp_init only after they are complete, and whenever libgrpp_is_initialized answers 1 the tables are complete.", "quantifier": "every number of threads, every interleaving", "why_tests_cant": "Scheduling nondeterminism.", "anchors": ["libgrpp/init_finalize.c:libgrpp_init", "libgrpp/init_finalize.c:libgrpp_is_initialized"]}
{"id": "C13", "title": "Finalise / re-initialise histories", "statement": "For every sequence of init and finalize calls, libgrpp_is_initialized reports 1 exactly when the last such call was init; repeated calls are idempotent, and the number of table constructions equals the number of init calls made in the uninitialised state.", "quantifier": "every history of init/finalize/is_initialized", "why_tests_cant": "All histories.", "anchors": ["libgrpp/init_finalize.c:libgrpp_init", "libgrpp/init_finalize.c:libgrpp_finalize"]}
{"id": "C14", "title": "Library parameters are independent and sticky", "statement": "After any history of parameter setter calls each of radial tolerance, angular tolerance, Bessel tolerance and Cartesian order equals the last value set for it (or its default), libgrpp_set_default_parameters restores all defaults, and an order code other than the two documented ones aborts without changing anything.", "quantifier": "every history of setter calls", "why_tests_cant": "All histories.", "anchors": ["libgrpp/parameters.c:libgrpp_set_radial_tolerance", "libgrpp/parameters.c:libgrpp_set_default_parameters", "libgrpp/parameters.c:libgrpp_set_cartesian_order"]}
{"id": "C15", "title": "The radial tolerance parameter governs the semilocal quadrature", "statement": "The tolerance set with libgrpp_set_radial_tolerance is the one used for convergence decisions in the type-2 / spin-orbit radial integrals.", "quantifier": "every tolerance value", "why_tests_cant": "Depends on values that never differ in tests.", "anchors": ["libgrpp/radial_type2_integral.c:tabulate_radial_type2_integrals", "libgrpp/parameters.c:libgrpp_set_radial_tolerance"]}
{"id": "C16", "title": "One-electron integrals are memory safe up to the documented angular momentum", "statement": "Overlap, kinetic-energy and momentum integrals access only their own scratch arrays for all shells with L <= LIBGRPP_MAX_BASIS_L = 10 and never read an uninitialised cell.", "quantifier": "all pairs of shells up to the documented maximum", "why_tests_cant": "Out-of-bounds stack accesses need not crash.", "anchors": ["libgrpp/overlap.c:overlap_integrals_shell_pair_obara_saika", "libgrpp/kinetic.c:kinetic_energy_integrals_shell_pair_obara_saika", "libgrpp/momentum.c:momentum_integrals_shell_pair_obara_saika", "libgrpp/libgrpp.h:LIBGRPP_MAX_BASIS_L"]}
{"id": "C17", "title": "Overlap integrals are the true integrals", "statement": "In exact arithmetic, for all shells with L <= 9 and positive exponents, every entry of the overlap matrix equals the integral over all space of the product of the two contracted, primitive-normalised Cartesian Gaussians.", "quantifier": "all centres, exponents > 0, contraction coefficients, L_A, L_B <= 9, all components", "why_tests_cant": "A continuum of inputs.", "anchors": ["libgrpp/overlap.c:libgrpp_overlap_integrals", "libgrpp/overlap.c:overlap_integrals_shell_pair_obara_saika", "libgrpp/norm_gaussian.c:gaussian_norm_factor"]}
{"id": "C18", "title": "Overlap is symmetric", "statement": "Exchanging the two shells transposes the overlap matrix.", "quantifier": "all pairs of shells", "why_tests_cant": "All real inputs.", "anchors": ["libgrpp/overlap.c:libgrpp_overlap_integrals"]}
{"id": "C19", "title": "Kinetic-energy integrals are the true integrals and symmetric", "statement": "In exact arithmetic every entry of the kinetic-energy matrix equals the integral of bra times -1/2 Laplacian of ket, and exchanging shells transposes the matrix.", "quantifier": "all centres, exponents > 0, coefficients, L <= 9", "why_tests_cant": "A continuum of inputs; the code differentiates the bra, not the ket.", "anchors": ["libgrpp/kinetic.c:libgrpp_kinetic_energy_integrals", "libgrpp/kinetic.c:kinetic_energy_integrals_shell_pair_obara_saika"]}
{"id": "C20", "title": "Momentum integrals are the true integrals and anti-symmetric", "statement": "In exact arithmetic the three momentum matrices are the imaginary parts of <A| -i d/dx |B>, i.e. minus the integral of bra times derivative of ket; exchanging the shells gives minus the transpose.", "quantifier": "all centres, exponents > 0, coefficients, L <= 9", "why_tests_cant": "A continuum of inputs.", "anchors": ["libgrpp/momentum.c:libgrpp_momentum_integrals", "libgrpp/momentum.c:momentum_integrals_shell_pair_obara_saika"]}
{"id": "C21", "title": "Translation invariance of one-electron integrals", "statement": "Shifting both shell centres by the same vector changes no entry of the overlap, kinetic or momentum matrices.", "quantifier": "all shells, all shift vectors", "why_tests_cant": "All real inputs.", "anchors": ["libgrpp/overlap.c:libgrpp_overlap_integrals", "libgrpp/kinetic.c:libgrpp_kinetic_energy_integrals", "libgrpp/momentum.c:libgrpp_momentum_integrals"]}
{"id": "C22", "title": "Bilinearity in contraction coefficients and splitting of contractions", "statement": "Overlap, kinetic and momentum matrices are additive under concatenating primitive lists and homogeneous under scaling of contraction coefficients, in each shell separately.", "quantifier": "all shells and scalings", "why_tests_cant": "All inputs.", "anchors": ["libgrpp/overlap.c:libgrpp_overlap_integrals", "libgrpp/kinetic.c:libgrpp_kinetic_energy_integrals", "libgrpp/momentum.c:libgrpp_momentum_integrals"]}
{"id": "C23", "title": "Primitive Gaussians are normalised", "statement": "For L=0 and for every component of the form x^L, the overlap of a primitive with itself is (2L-1)!! in the library's normalisation; in particular s primitives have norm one.", "quantifier": "all exponents > 0, all centres, L <= 9", "why_tests_cant": "Continuum of exponents.", "anchors": ["libgrpp/norm_gaussian.c:gaussian_norm_factor", "libgrpp/overlap.c:overlap_integrals_shell_pair_obara_saika"]}
{"id": "C24", "title": "Differentiated shells represent the true derivative", "statement": "The pair of shells (L-1, L+1) produced when differentiating a shell reproduces the derivative of each contracted Gaussian with respect to its centre: d/dA_x phi(n,l,m) = phi+ (n+1,l,m) - n * phi-(n-1,l,m); for L = 0 no lower shell is produced.", "quantifier": "all shells, components, points in space", "why_tests_cant": "Continuum of inputs.", "anchors": ["libgrpp/diff_gaussian.c:differentiate_shell", "libgrpp/diff_gaussian.c:norm_factor"]}
{"id": "C25", "title": "Overlap gradients are the true derivatives", "statement": "In exact arithmetic the overlap gradient at point D equals the derivative of the overlap matrix with respect to the coordinates of D when D coincides with exactly one of the two centres, and is zero when both centres coincide or D is elsewhere.", "quantifier": "all shells with L <= 8, all D", "why_tests_cant": "Continuum of inputs and coincidence patterns.", "anchors": ["libgrpp/overlap_gradient.c:libgrpp_overlap_integrals_gradient"]}
{"id": "C26", "title": "Overlap gradient never touches memory outside its matrices", "statement": "Computing overlap gradients reads and writes only inside allocated blocks.", "quantifier": "all shells", "why_tests_cant": "A read outside the block multiplied by zero usually goes unnoticed.", "anchors": ["libgrpp/overlap_gradient.c:overlap_gradient_diff_bra_contribution", "libgrpp/overlap_gradient.c:nlm_to_linear"]}
{"id": "C27", "title": "Overlap gradient is safe to call from several threads on the same shells", "statement": "Evaluating overlap gradients with shared shell objects from different threads gives each thread the single-threaded result (README and manual promise thread safety).", "quantifier": "every interleaving", "why_tests_cant": "Scheduling nondeterminism.", "anchors": ["libgrpp/overlap_gradient.c:overlap_gradient_diff_bra_contribution", "README.md"]}
{"id": "C28", "title": "Full GRPP integrals are the sum of their parts", "statement": "libgrpp_full_grpp_integrals returns exactly: arep = local + sum of averaged semilocal + outercore arep; so_x/y/z = sum over spin-orbit potentials of 2/(2L+1) times their integrals + outercore so; missing parts contribute zero, and previous content of the output buffers is irrelevant.", "quantifier": "every GRPP, shells, initial buffer contents", "why_tests_cant": "All compositions of potentials.", "anchors": ["libgrpp/full_grpp_integrals.c:libgrpp_full_grpp_integrals"]}
{"id": "C29", "title": "GRPP gradients: coincidence cases and translational sum rule", "statement": "For exact integrals the GRPP gradient routine returns zero if A, B and the pseudopotential centre coincide or the point matches no centre; otherwise the gradients with respect to the distinct centres sum to zero, and each is the sum of bra and ket derivative contributions for the centres located at that point.", "quantifier": "all shells, centres, points", "why_tests_cant": "All coincidence patterns, all inputs.", "anchors": ["libgrpp/grpp_integrals_gradient.c:libgrpp_full_grpp_integrals_gradient"]}
{"id": "C30", "title": "Separate gradient entry points agree with the full one", "statement": "The local, semilocal, spin-orbit and outercore gradient entry points return the gradient of the corresponding single-term GRPP; in particular the spin-orbit one undoes the 2/(2L+1) scaling exactly, and every entry point leaves the caller's potentials alive and frees all its temporaries.", "quantifier": "all potentials, shells, points", "why_tests_cant": "History/heap property plus all inputs.", "anchors": ["libgrpp/grpp_integrals_gradient.c:libgrpp_type1_integrals_gradient", "libgrpp/grpp_integrals_gradient.c:libgrpp_type2_integrals_gradient", "libgrpp/grpp_integrals_gradient.c:libgrpp_spin_orbit_integrals_gradient", "libgrpp/grpp_integrals_gradient.c:libgrpp_outercore_potential_integrals_gradient"]}
{"id": "C31", "title": "GRPP gradients never touch memory outside their matrices", "statement": "Computing GRPP gradients reads and writes only inside allocated blocks, for every pair of shells.", "quantifier": "all shells", "why_tests_cant": "A stray read multiplied by a zero exponent goes unnoticed unless it hits NaN.", "anchors": ["libgrpp/grpp_integrals_gradient.c:grpp_gradient_diff_bra_contribution", "libgrpp/grpp_integrals_gradient.c:grpp_gradient_diff_bra_grpp_integrals"]}
{"id": "C32", "title": "Angular momentum matrices obey the rotation algebra", "statement": "For every L the three real matrices returned for real spherical harmonics are antisymmetric, satisfy the cyclic commutation relations of the angular momentum operator and have squared sum -L(L+1) times the identity; the complex-harmonic matrices satisfy the usual ladder algebra.", "quantifier": "every L >= 0", "why_tests_cant": "For every L, all matrix entries.", "anchors": ["libgrpp/lmatrix.c:construct_angular_momentum_matrices_rsh", "libgrpp/lmatrix.c:construct_angular_momentum_matrices_csh"]}
{"id": "C33", "title": "Unit-sphere monomial integrals", "statement": "integrate_unitary_sphere_polynomial(i,j,k) equals the surface integral of x^i y^j z^k over the unit sphere: zero when an exponent is odd, and 4 pi (i-1)!!(j-1)!!(k-1)!!/(i+j+k+1)!! otherwise; it aborts exactly when all three exponents are even and i+j+k > 29.", "quantifier": "all exponent triples", "why_tests_cant": "All exponents.", "anchors": ["libgrpp/angular_integrals.c:integrate_unitary_sphere_polynomial"]}
{"id": "C34", "title": "Semilocal integrals do not abort within the documented maxima", "statement": "For basis functions and projectors with L <= 10 the angular integrals needed for type-2 and spin-orbit integrals never hit a failing assertion.", "quantifier": "all L_A, L <= 10", "why_tests_cant": "Requires the extreme quantum numbers.", "anchors": ["libgrpp/angular_integrals.c:angular_type2_integral", "libgrpp/factorial.c:double_factorial", "libgrpp/libgrpp.h:LIBGRPP_MAX_RPP_L"]}
{"id": "C35", "title": "Adaptive radial quadrature (local potential): exact refinement and termination", "statement": "For every integrand, tolerance and grid parameter the adaptive refinement terminates within a fixed number of doublings, never stores beyond its grid capacity, and the value it returns is exactly the full quadrature sum on the final grid: the incremental update equals recomputation from scratch.", "quantifier": "all integrands, tolerances, start grids", "why_tests_cant": "All inputs; off-by-one in point reuse is invisible at converged tolerances.", "anchors": ["libgrpp/radial_type1_integral.c:calculate_radial_type1_integral", "libgrpp/radial_type1_integral.c:expand_radial_type1_grid"]}
{"id": "C36", "title": "Adaptive radial quadrature (semilocal): exact refinement and termination", "statement": "The same for the two-index radial integrals: termination, storage bounds, nested grids equal to the fine grid, and incremental sum equal to the full quadrature sum.", "quantifier": "all integrands, tolerances", "why_tests_cant": "All inputs.", "anchors": ["libgrpp/radial_type2_integral.c:calculate_radial_type2_integral", "libgrpp/radial_type2_integral.c:expand_radial_type2_grid"]}
{"id": "C37", "title": "Radial integral tables: no collisions, no out-of-range access", "statement": "Every (lambda1, lambda2, n) (resp. (lambda, n)) combination requested by the integral routines is stored in its own slot within the allocated table and read back as the value computed for it.", "quantifier": "all lambda and n limits", "why_tests_cant": "All dimension combinations.", "anchors": ["libgrpp/radial_type1_integral.c:get_radial_type1_integral", "libgrpp/radial_type2_integral.c:get_radial_type2_integral"]}
{"id": "C38", "title": "Bessel table lookup and derivatives", "statement": "For every argument 0 <= x <= 16 the table row used is the nearest tabulated abscissa, lies inside the table, and |x - x0| <= 0.005; the derivative columns 1..4 are the derivatives of the scaled modified spherical Bessel function for all orders lambda <= 51 (up to 2^k times the error of the tabulated values), and the value returned is accurate to 1e-12 plus 1.02 times the error of the tabulated values.", "quantifier": "all x in [0,16], all orders <= 51", "why_tests_cant": "Continuum of x; edge rows.", "anchors": ["libgrpp/specfunc_scaled_mod_sph_bessel.c:modified_bessel_scaled", "libgrpp/specfunc_scaled_mod_sph_bessel.c:pretabulate_bessel"]}
{"id": "C39", "title": "Large-argument Bessel formula", "statement": "For x > 16 the returned value differs from exp(-x) i_n(x) (scaled modified spherical Bessel function) by exactly the exponentially small term (-1)^n R_n(x) exp(-2x)/(2x), where R_n is the documented finite sum with its coefficients rounded to 1.5e-16 relative; orders of 50 and more read outside the table.", "quantifier": "all x > 0, all n", "why_tests_cant": "Continuum of x and all orders.", "anchors": ["libgrpp/specfunc_scaled_mod_sph_bessel.c:bessel_asymptotic_R_function"]}
{"id": "C40", "title": "Local (type 1) integrals in the McMurchie-Davidson scheme: expansion coefficients", "statement": "The Hermite expansion coefficients satisfy, for all exponents, centres, powers: the product of the two Cartesian Gaussians equals the sum over t of E_t times the t-th Hermite Gaussian; no cell is read before it is written.", "quantifier": "all exponents > 0, centres, i,j <= 9, every point x", "why_tests_cant": "Continuum of inputs.", "anchors": ["libgrpp/type1_mcmurchie_davidson.c:setup_E_array"]}
{"id": "C41", "title": "Local (type 1) integrals for r^0 terms are the true integrals", "statement": "For potential terms with power n=2 the type-1 integral equals the integral over all space of bra * c exp(-zeta |r-C|^2) * ket.", "quantifier": "all shells with L <= 9, centres, exponents", "why_tests_cant": "Continuum of inputs.", "anchors": ["libgrpp/type1_mcmurchie_davidson.c:evaluate_rpp_type1_mmd_n2_primitive_shell_pair", "libgrpp/type1_integrals.c:libgrpp_type1_integrals"]}
{"id": "C42", "title": "Type-1 integrals: linearity, absent potential, documented powers", "statement": "Type-1 integrals are the sum over potential terms of single-term integrals; a NULL potential gives a zero matrix; a term with power outside {0,1,2} aborts rather than returning a wrong number; uninitialised library aborts.", "quantifier": "all potentials, shells", "why_tests_cant": "All term lists.", "anchors": ["libgrpp/type1_integrals.c:libgrpp_type1_integrals", "libgrpp/type1_mcmurchie_davidson.c:libgrpp_type1_integrals_mcmurchie_davidson_1978"]}
{"id": "C43", "title": "Hermite Coulomb auxiliary integrals", "statement": "The R (and G) auxiliary arrays of the McMurchie-Davidson scheme contain the mixed partial derivatives of the base function: entry (t,u,v) equals the (t,u,v)-th derivative for all t+u+v up to L_A+L_B, no cell is read before it is written and none outside the arrays for L <= 9.", "quantifier": "all L_A, L_B <= 9, all geometries", "why_tests_cant": "All index triples, all inputs.", "anchors": ["libgrpp/type1_mcmurchie_davidson.c:setup_R_array", "libgrpp/type1_mcmurchie_davidson.c:setup_G_array"]}
{"id": "C44", "title": "Boys function lookup", "statement": "For 0 <= x <= 30 the row used is the nearest tabulated abscissa inside the table; and the value returned is the Boys function to within 1.5e-14 (literal table included) for n <= 33, and for x > 30 for n <= 15; for x > 30 the routine aborts when 2n-1 > 30, so nuclear attraction / 1/r type-1 integrals with L_A+L_B >= 16 abort for distant centres.", "quantifier": "all n, all x >= 0", "why_tests_cant": "Continuum of x; high L.", "anchors": ["libgrpp/specfunc_boys.c:boys_function", "libgrpp/factorial.c:double_factorial"]}
{"id": "C45", "title": "Chebyshev series evaluation and parity of Dawson's integral", "statement": "The Clenshaw routine returns sum a_k T_k(x) for every coefficient list and every x, and the Dawson routine is odd: Daw(-x) = -Daw(x) for every x.", "quantifier": "all coefficient lists, all x", "why_tests_cant": "Continuum of inputs.", "anchors": ["libgrpp/specfunc_dawson.c:xChebyshev_Tn_Series", "libgrpp/specfunc_dawson.c:xDawsons_Integral"]}
{"id": "C46", "title": "G-function recurrences are consistent", "statement": "The upward recursion (x > 12) and downward recursion (x <= 12) used for the G functions are the same relation solved in the two directions: a sequence satisfies one iff it satisfies the other, so given an exact seed all returned values are the exact ones; the series seed for x <= 12 is below the exact value by at most 1.2e-14, and an error of the seed grows by no more than the product of the recurrence factors.", "quantifier": "all x > 0, all orders", "why_tests_cant": "Continuum of x.", "anchors": ["libgrpp/specfunc_gfun.c:gfun_values"]}
{"id": "C47", "title": "Electrostatic potentials of nuclear charge models", "statement": "The ball potential is continuously differentiable, satisfies Poisson's equation with the ball density inside, and is -Z/r outside; densities integrate to Z; the Fermi and Fermi-bubble potentials are continuous at r = c, solve Poisson's equation with the Fermi densities and approach -Z/r.", "quantifier": "all Z, radii, r > 0", "why_tests_cant": "Continuum of r; the seam between formulas.", "anchors": ["libgrpp/nuclear_models.c:libgrpp_coulomb_potential_ball", "libgrpp/nuclear_models.c:libgrpp_charge_density_ball", "libgrpp/nuclear_models.c:libgrpp_coulomb_potential_fermi", "libgrpp/nuclear_models.c:libgrpp_coulomb_potential_fermi_bubble"]}
{"id": "C48", "title": "Nuclear attraction convenience routines use the parameters they are given", "statement": "libgrpp_nuclear_attraction_integrals_charged_ball(A,B,C,Z,R) returns the integrals of the ball potential with charge Z and rms radius R (likewise Gaussian, Fermi, Fermi bubble).", "quantifier": "all shells and parameter values", "why_tests_cant": "Only a comparison with the general routine for all parameters settles it; the general routine itself works.", "anchors": ["libgrpp/nuclear_attraction.c:libgrpp_nuclear_attraction_integrals_charged_ball", "libgrpp/nuclear_attraction.c:libgrpp_nuclear_attraction_integrals"]}
{"id": "C49", "title": "Outercore integrals: selection rules and hermiticity", "statement": "The two-projector outercore contribution vanishes unless both shells have equal L and J, all outercore contributions satisfy bra-ket symmetry (arep symmetric, spin-orbit antisymmetric under exchange), given symmetric building blocks.", "quantifier": "all outercore sets, shells", "why_tests_cant": "All combinations.", "anchors": ["libgrpp/outercore_integrals.c:libgrpp_outercore_potential_integrals_part_1", "libgrpp/outercore_integrals.c:libgrpp_outercore_potential_integrals_part_2"]}
{"id": "C50", "title": "One-centre outercore radial integrals are the true integrals", "statement": "The analytic formula for the primitive one-centre radial integral equals the integral from 0 to infinity of r^(2L+n) exp(-a r^2) dr (as used by the library) for every L, n and a > 0.", "quantifier": "all L, n >= 0, a > 0", "why_tests_cant": "Continuum of exponents; both parities.", "anchors": ["libgrpp/outercore_integrals.c:analytic_one_center_rpp_integral_primitive"]}
{"id": "C51", "title": "Outercore shells with large L", "statement": "Normalising outercore radial functions is memory safe for every L accepted by libgrpp_new_shell.", "quantifier": "all L", "why_tests_cant": "The table bound is only reached for large L.", "anchors": ["libgrpp/outercore_integrals.c:radial_gto_norm_factor"]}
{"id": "C52", "title": "Coordinate comparison used for centre coincidence", "statement": "points_are_equal is reflexive and symmetric, holds exactly when all three coordinate differences are below 1e-12, and is not transitive, so centre classification can depend on which pair is compared.", "quantifier": "all triples of points", "why_tests_cant": "Continuum of points.", "anchors": ["libgrpp/utils.c:points_are_equal"]}
{"id": "C53", "title": "Fortran interface equals the C interface", "statement": "Each Fortran entry point allocates temporaries, calls the corresponding C routine with the same values, and frees exactly what it allocated; outputs equal those of the C routine.", "quantifier": "all arguments, all heap states", "why_tests_cant": "Leak freedom and argument order for all inputs.", "anchors": ["libgrpp/fortran.c:libgrpp_type1_integrals_", "libgrpp/fortran.c:libgrpp_overlap_integrals_", "libgrpp/fortran.c:libgrpp_spin_orbit_integrals_gradient_"]}
{"id": "C54", "title": "Real spherical harmonics expansion", "statement": "The Cartesian expansion coefficients define homogeneous polynomials of degree l; evaluation of a single harmonic and array evaluation agree; the tabulated coefficients are those of the direct formula; the polynomials are harmonic and orthonormal on the sphere.", "quantifier": "all l <= 40, |m| <= l, all unit vectors", "why_tests_cant": "Continuum of directions, all l,m.", "anchors": ["libgrpp/spherical_harmonics.c:spherical_to_cartesian_coef", "libgrpp/spherical_harmonics.c:evaluate_real_spherical_harmonic", "libgrpp/spherical_harmonics.c:evaluate_real_spherical_harmonics_array"]}
{"id": "C55", "title": "Matrix helper routines", "statement": "multiply_matrices adds A*B to C entry by entry, the vector update adds a*x to y entry by entry, both for every size, touching only the given extents.", "quantifier": "all sizes and contents", "why_tests_cant": "All sizes.", "anchors": ["libgrpp/utils.c:libgrpp_multiply_matrices", "libgrpp/utils.c:libgrpp_daxpy"]}
{"id": "C56", "title": "Unknown nuclear model codes", "statement": "The nuclear attraction routine never returns a matrix for a model code outside the documented enumeration.", "quantifier": "all model codes, shells", "why_tests_cant": "All codes; interacts with primitive screening.", "anchors": ["libgrpp/nuclear_attraction.c:libgrpp_nuclear_attraction_integrals"]}
{"id": "C57", "title": "Root mean square radii of the nuclear charge models", "statement": "The radius handed to the ball and Gaussian models is the root mean square radius of their charge density; the rms functions of the Fermi and Fermi-bubble models return the root mean square radius of those densities; the Fermi parameters estimated from an rms radius reproduce that radius up to a term exponentially small in c/a, and the estimate is refused exactly when the radius is too small for the fixed skin thickness.", "quantifier": "all charges, radii, c, a, k", "why_tests_cant": "Integrals over unbounded densities for a continuum of parameters.", "anchors": ["libgrpp/nuclear_models.c:libgrpp_rms_radius_fermi", "libgrpp/nuclear_models.c:libgrpp_rms_radius_fermi_bubble", "libgrpp/nuclear_models.c:libgrpp_estimate_fermi_model_parameters", "libgrpp/nuclear_models.c:libgrpp_charge_density_ball", "libgrpp/nuclear_models.c:libgrpp_charge_density_gaussian"]}
{"id": "C58", "title": "Angular integrals", "statement": "The type-1 and type-2 angular integrals equal the sum over mu of the surface integral of x^a y^b z^c S_lambda,mu (times S_Lm for type 2) multiplied by S_lambda,mu in the direction of k, where for type 2 direction values below 1e-14 are taken as zero.", "quantifier": "all lambda, L <= 20, all exponents with total degree <= 29 or odd, all vectors k", "why_tests_cant": "Continuum of directions and integrals over the sphere.", "anchors": ["libgrpp/angular_integrals.c:angular_type1_integral", "libgrpp/angular_integrals.c:angular_type2_integral"]}
{"id": "C59", "title": "Outercore operator", "statement": "The four matrices of the outercore routine are the matrix elements of sum_i w_i (U_i P_i + P_i U_i) - sum_ij w_i P_i (U_i + U_j)/2 P_j over the outercore orbitals (j restricted to the same L and J), and of its spin-orbit part, between the functions of the two shells, with exact overlaps and radial integrals, given exact type-1 integrals; the tabulated radial norm is exact to 2e-15.", "quantifier": "all shells and outercore shells with L <= 9, all potentials, geometries and contractions", "why_tests_cant": "Continuum of exponents and geometries; sums of projectors.", "anchors": ["libgrpp/outercore_integrals.c:libgrpp_outercore_potential_integrals", "libgrpp/outercore_integrals.c:radial_gto_norm_factor"]}
{"id": "C60", "title": "Scaled Bessel functions are accurate for every supported order", "statement": "The scaled modified spherical Bessel function of every order up to 20 (the largest needed for L <= 10) is accurate to 5e-11 plus 1.02 times the error of the tabulated values, for every x >= 0; for orders above 40 that the coefficient table also offers the value just above x = 16 is meaningless.", "quantifier": "all x >= 0, all orders 0..20", "why_tests_cant": "Continuum of x; the error appears only just beyond the switch of formulas.", "anchors": ["libgrpp/specfunc_scaled_mod_sph_bessel.c:modified_bessel_scaled", "libgrpp/specfunc_scaled_mod_sph_bessel.c:bessel_asymptotic_R_function"]}
{"id": "C61", "title": "Local (type 1) integrals with 1/r and 1/r^2 terms", "statement": "For potentials with terms of power 0, 1 and 2 every type-1 element is the integral of bra, potential and ket up to the error of the special functions (1.5e-9) times an explicit factor; nothing outside the matrix is written.", "quantifier": "all shells with L <= 9 and L_A+L_B <= 15, all contractions, geometries and potentials", "why_tests_cant": "Continuum of exponents, geometries; integrals over singular functions.", "anchors": ["libgrpp/type1_integrals.c:libgrpp_type1_integrals", "libgrpp/type1_mcmurchie_davidson.c:evaluate_rpp_type1_mmd_n0_primitive_shell_pair", "libgrpp/type1_mcmurchie_davidson.c:evaluate_rpp_type1_mmd_n1_primitive_shell_pair"]}
{"id": "C62", "title": "Attraction to a point charge", "statement": "The point-charge nuclear attraction integrals are -Z times the integrals of 1/r between the two contracted functions, up to 1.5e-14 |Z| times an explicit factor.", "quantifier": "all shells with L <= 9 for which the Boys function is available, all geometries and charges", "why_tests_cant": "Continuum of inputs; integrals over a singular function.", "anchors": ["libgrpp/nuclear_attraction.c:libgrpp_nuclear_attraction_integrals_point_charge", "libgrpp/type1_mcmurchie_davidson.c:evaluate_rpp_type1_mmd_n1_primitive_shell_pair"]}
{"id": "C63", "title": "Type-1 integrals and point-charge integrals exist for every documented angular momentum", "statement": "For shells with angular momentum up to the documented maximum 10 the local integrals are returned for every geometry.", "quantifier": "all L <= 10, all geometries", "why_tests_cant": "The failure needs a high sum of angular momenta and a distant or steep pair.", "anchors": ["libgrpp/type1_mcmurchie_davidson.c:setup_E_array", "libgrpp/specfunc_boys.c:boys_function", "libgrpp/factorial.c:double_factorial"]}
{"id": "C64", "title": "Semilocal integrals are the projected integrals", "statement": "Every element of the semilocal (type 2) matrix is the integral over r of r^2 U(r) times the sum over m of the products of the projections of the two contracted functions on the real spherical harmonics S_Lm around the potential's centre, up to an explicit bound made of the thresholds of the code and the error of the tabulated radial integrals; for two shells at the centre the radial integrals are exact. Nothing outside the matrix is written and no assertion fails when L plus the larger shell angular momentum is at most 14.", "quantifier": "all shells, contractions, geometries (centre of the shell at the potential or not closer than the direction threshold), potentials with non-negative exponents and powers in the supported range", "why_tests_cant": "Continuum of exponents and geometries; projections on spheres and an improper integral.", "anchors": ["libgrpp/type2_integrals.c:libgrpp_type2_integrals", "libgrpp/type2_integrals.c:type2_angular_sum", "libgrpp/radial_type2_integral.c:tabulate_radial_type2_integrals", "libgrpp/angular_integrals.c:angular_type2_integral"]}
{"id": "C65", "title": "Spin-orbit integrals are matrix elements of U(r) P_L l P_L", "statement": "The three spin-orbit matrices are, up to an explicit bound as for the semilocal integrals, the (imaginary parts of the) matrix elements of U(r) P_L l_k P_L, k = x, y, z, between the contracted functions, where l_k is the generator of rotations around the axis k.", "quantifier": "as for the semilocal integrals", "why_tests_cant": "Continuum of inputs; sign and order of components are invisible in norms.", "anchors": ["libgrpp/spin_orbit_integrals.c:libgrpp_spin_orbit_integrals", "libgrpp/spin_orbit_integrals.c:type3_angular_sum", "libgrpp/lmatrix.c:libgrpp_construct_angular_momentum_matrices_rsh"]}
{"id": "C66", "title": "Angular momentum matrices generate the rotations of the real spherical harmonics", "statement": "For every L the derivative of S_Lm along a rotation around the axis k is minus the sum over p of W_k(p,m) S_Lp, where W_x, W_y, W_z are the matrices returned by the library: phases, order of components and axes all agree with the harmonics used in the integrals.", "quantifier": "all L, all m, all directions", "why_tests_cant": "All L and a continuum of directions; a different phase convention passes all algebraic tests.", "anchors": ["libgrpp/lmatrix.c:libgrpp_construct_angular_momentum_matrices_rsh", "libgrpp/spherical_harmonics.c:libgrpp_evaluate_real_spherical_harmonic"]}
{"id": "C67", "title": "Norm of a contracted radial function", "statement": "The Fortran routine libgrpp_radial_gto_norm_factor_ returns the positive factor v for which the contracted radial function v R(r) (primitives individually normalised) has norm one, integral of (v R(r))^2 r^2 equal to 1, and leaves no memory behind.", "quantifier": "all L <= 9, all contractions whose radial function is not identically zero", "why_tests_cant": "Continuum of exponents and coefficients; improper integral.", "anchors": ["libgrpp/fortran.c:libgrpp_radial_gto_norm_factor_", "libgrpp/fortran.c:libgrpp_evaluate_overlap_integral_contracted_"]}
{"id": "C68", "title": "Nuclear attraction integrals of finite nuclei", "statement": "For the ball, Gaussian, Fermi, Fermi bubble and (numerical) point models every element returned by the general nuclear attraction routine is the integral over space of bra, potential of the charge distribution and ket, up to an explicit bound made of the thresholds of the code and of the error of the radial quadrature; nothing outside the matrix is written and no assertion fails for documented angular momenta.", "quantifier": "all shells, contractions, geometries, charges and model parameters", "why_tests_cant": "Continuum of exponents, geometries and parameters; a numerical quadrature is compared with an integral over space; the abort needs a high sum of angular momenta.", "anchors": ["libgrpp/nuclear_attraction.c:libgrpp_nuclear_attraction_integrals", "libgrpp/type1_integrals.c:evaluate_radially_local_potential_integral_primitive_gaussians", "libgrpp/radial_type1_integral.c:tabulate_radial_type1_integrals", "libgrpp/angular_integrals.c:angular_type1_integral"]}
{"id": "C69", "title": "Accuracy of the special function S_k(x) of the Fermi model", "statement": "For every order k from 2 to 7 and every x <= 0 the tabulated function returns S_k(x) = sum over n of (-1)^n e^(n x) / n^k with an error below 3e-11 e^x (relative error below 4e-11), in the table range, at x = 0 and in the asymptotic tails; the direct summation offered beside it converges and is accurate to 1e-12; other orders abort, and positive arguments beyond 0.005 read past the table.", "quantifier": "all k, all x <= 0", "why_tests_cant": "Continuum of x and 20010 tabulated numbers; a wrong digit in one entry shows up only in an interval of width 0.005.", "anchors": ["libgrpp/specfunc_fermi_sk.c:specfunc_fermi_sk", "libgrpp/specfunc_fermi_sk.c:specfunc_fermi_sk_table"]}
{"id": "C70", "title": "Fermi and Fermi bubble quantities computed with the tables", "statement": "Evaluated with the tabulated S_k, the charge densities and rms radii of the Fermi and Fermi bubble models have a relative error below 5e-11, and the potentials differ from the exact ones by less than the potential of a charge 1e-9 (a/c)^2 Z (Fermi) or 2e-8 (a/c)^2 Z (bubble).", "quantifier": "all r > 0, Z, c >= a > 0, k >= 0", "why_tests_cant": "Continuum of radii and parameters; cancellations between terms.", "anchors": ["libgrpp/nuclear_models.c:libgrpp_coulomb_potential_fermi", "libgrpp/nuclear_models.c:libgrpp_coulomb_potential_fermi_bubble", "libgrpp/nuclear_models.c:libgrpp_charge_density_fermi", "libgrpp/nuclear_models.c:libgrpp_rms_radius_fermi", "libgrpp/nuclear_models.c:libgrpp_rms_radius_fermi_bubble"]}
{"id": "C71", "title": "A spread out nucleus binds weaker than a point nucleus", "statement": "For a non-negative charge Z the potential of every nuclear model satisfies -Z/r <= V(r) <= 0 for every r > 0 and never decreases with r.", "quantifier": "all models, parameters and radii", "why_tests_cant": "Inequality on a continuum; the formulas change at the nuclear radius.", "anchors": ["libgrpp/nuclear_models.c:libgrpp_coulomb_potential_ball", "libgrpp/nuclear_models.c:libgrpp_coulomb_potential_gaussian", "libgrpp/nuclear_models.c:libgrpp_coulomb_potential_fermi", "libgrpp/nuclear_models.c:libgrpp_coulomb_potential_fermi_bubble"]}
{"id": "C72", "title": "Documented accuracy of the table of S_k(x)", "statement": "On [-10, 0] the third order Taylor expansion reaches the accuracy of about 1e-12 stated in the source for every order.", "quantifier": "all k, all x in [-10, 0]", "why_tests_cant": "Continuum of x; the largest error sits just before a grid point near 0.", "anchors": ["libgrpp/specfunc_fermi_sk.c:specfunc_fermi_sk"]}
{"id": "C73", "title": "Dawson's integral to long double accuracy", "statement": "For every real x the routine returns Dawson's integral with an absolute error of at most 2^-64 in exact arithmetic: in the power series, in each of the six Chebyshev expansions (in spite of the missing comma in the last one) and in the asymptotic expansion, up to the borders between them. The local integrals with a 1/r^2 term computed with it inherit this.", "quantifier": "all real x", "why_tests_cant": "Continuum of arguments; 124 literals of 22 digits, where a wrong digit late in the series changes only the last digits of the result.", "anchors": ["libgrpp/specfunc_dawson.c:Dawsons_Integral", "libgrpp/specfunc_dawson.c:xDawsons_Integral", "libgrpp/specfunc_dawson.c:Dawson_Chebyshev_Expansion_550_725", "libgrpp/specfunc_dawson.c:Dawson_Asymptotic_Expansion", "libgrpp/specfunc_gfun.c"]}
{"id": "C74", "title": "Tabulated Bessel functions", "statement": "Every number of the table of scaled modified spherical Bessel functions (1601 arguments 0.00 to 16.00, orders 0 to 59) differs from the exact value by at most 2e-14. Hence the routine of the library returns the function to 1.03e-12 for arguments up to 16 and orders up to 51, and to 5.01e-11 for every argument and orders up to 20, with no assumption on the table.", "quantifier": "all entries; all x >= 0", "why_tests_cant": "96060 literals; a wrong digit in one of them changes integrals at one grid point only; the arguments between the grid points form a continuum.", "anchors": ["libgrpp/specfunc_bessel_table.c:bessel_table_0", "libgrpp/specfunc_scaled_mod_sph_bessel.c:modified_bessel_scaled", "libgrpp/specfunc_scaled_mod_sph_bessel.c:pretabulate_bessel"]}
{"id": "C75", "title": "Digits of the tabulated Bessel functions", "statement": "The tabulated Bessel functions, printed with 17 digits, have a relative error below 1e-12.", "quantifier": "all entries", "why_tests_cant": "Requires the exact value of a transcendental function to more digits than any reference the table could be compared with.", "anchors": ["libgrpp/specfunc_bessel_table.c:bessel_table_0"]}
{"id": "C76", "title": "Radial quadrature converges to the integral", "statement": "On finer and finer grids the sum formed for a radial integral tends to the integral over the half line of potential, Gaussians, Bessel functions and power; for integrands with two bounded derivatives the error on n points is at most 720 M/(n+1)^2. For semilocal potentials (all powers r^(n-2), n >= 0, all exponents) and for local, Coulomb-like potentials this holds with the library's own Bessel functions up to 1.01e-10 (5.01e-11) times the integral of the absolute values.", "quantifier": "all potentials, shells, centres, orders up to 20, all grids", "why_tests_cant": "Limit over infinitely many grids on an infinite range; any finite test sees a few grids of a few integrands.", "anchors": ["libgrpp/radial_type1_integral.c:calculate_radial_type1_integral", "libgrpp/radial_type2_integral.c:calculate_radial_type2_integral", "libgrpp/radial_type1_integral.c:expand_radial_type1_grid", "libgrpp/radial_type2_integral.c:expand_radial_type2_grid"]}
{"id": "C77", "title": "Accepted radial integrals are within the tolerance", "statement": "A radial integral which the adaptive quadrature accepts as converged differs from the exact integral by no more than a fixed multiple of the tolerance.", "quantifier": "all integrands built from Gaussian shells", "why_tests_cant": "Needs integrands whose features lie between the points of the first grids: a test would have to know where.", "anchors": ["libgrpp/radial_type1_integral.c:calculate_radial_type1_integral", "libgrpp/radial_type1_integral.c:tabulate_radial_type1_integrals"]}
{"id": "C78", "title": "GRPP integrals and gradients end to end", "statement": "The four matrices returned for a full GRPP operator hold the matrix elements of that operator - local part, semilocal projections, spin-orbit terms 2/(2L+1) times projected angular momentum, outercore terms - between the contracted basis functions, with an error that is an explicit function of the accuracy of the tabulated radial integrals and of the local part only; the gradients hold the derivatives of these elements with respect to the centres with the corresponding error.", "quantifier": "all shells with L <= 9 (8 for gradients), all operators within the limits of the tables, all geometries, all contents of the output matrices", "why_tests_cant": "Compares the library with an operator on functions; every part of the library contributes, over a continuum of exponents and geometries.", "anchors": ["libgrpp/full_grpp_integrals.c:libgrpp_full_grpp_integrals", "libgrpp/grpp_integrals_gradient.c:libgrpp_full_grpp_integrals_gradient", "libgrpp/type2_integrals.c:libgrpp_type2_integrals", "libgrpp/spin_orbit_integrals.c:libgrpp_spin_orbit_integrals", "libgrpp/type1_integrals.c:libgrpp_type1_integrals", "libgrpp/outercore_integrals.c:libgrpp_outercore_potential_integrals"]}
{"id": "C79", "title": "Bessel functions in double precision", "statement": "With every operation rounded to double precision (IEEE binary64, round to nearest even, operations in the order of the source) and every literal rounded to a double, the working table is filled without overflow, and the scaled Bessel functions are returned with an error of at most 1e-12 for arguments up to 16 and orders up to 51, and of at most 1e-10 for arguments up to 1e99 and orders up to 20.", "quantifier": "all real arguments in range, all orders", "why_tests_cant": "2^62 arguments per order; the index computation (int)(round(x*100)+1e-5), the borders 1e-7 and 16 and cancellation in the asymptotic sum depend on individual roundings.", "anchors": ["libgrpp/specfunc_scaled_mod_sph_bessel.c:modified_bessel_scaled", "libgrpp/specfunc_scaled_mod_sph_bessel.c:pretabulate_bessel", "libgrpp/specfunc_scaled_mod_sph_bessel.c:modified_scaled_bessel_derivative", "libgrpp/specfunc_scaled_mod_sph_bessel.c:bessel_asymptotic_R_function", "libgrpp/specfunc_bessel_table.c:bessel_table_0"]}
{"id": "C80", "title": "Overlap integrals in double precision", "statement": "With every operation rounded to double precision (IEEE binary64, operations in the order of the source; exp and pow of the C library accurate to one unit in the last place), the overlap matrix of two shells with L <= 9, coefficients up to 1e6, exponents between 1e-8 and 1e10, coordinates up to 1e4 and at most 10000 pairs of primitives is computed without overflow, nothing outside the matrix is written, and every element differs from the integral of the product of the two contracted functions by at most (100 + 10 (L_A + L_B) + 2 n_A n_B) 2^-53 times a scale which is the sum over pairs of primitives of |coefficients|, norms, (pi/p)^(3/2) and one length per power of a coordinate. The self-overlap of a normalised s function comes out as 1 within 1.2e-14 wherever it is centred.", "quantifier": "all shells in range, all libraries with the stated accuracy, all components", "why_tests_cant": "rounding errors in the recursion depend on all inputs at once; a test compares a few shells with a tolerance and cannot bound cancellation over all centres and exponents.", "anchors": ["libgrpp/overlap.c:libgrpp_overlap_integrals", "libgrpp/overlap.c:overlap_integrals_shell_pair_obara_saika", "libgrpp/norm_gaussian.c:libgrpp_gaussian_norm_factor", "libgrpp/utils.c:libgrpp_daxpy"]}
{"id": "C81", "title": "Overlap and kinetic energy matrices are positive definite", "statement": "For every list of basis functions (components of shells anywhere in space, with any contraction) and every choice of coefficients, the double sum of coefficient times coefficient times matrix element returned by the library is not negative, and it vanishes only if the linear combination is identically zero - for overlap as well as for kinetic energy integrals. In particular the square of every off-diagonal element is at most the product of the diagonal elements.", "quantifier": "all finite bases with L <= 9, all coefficients, all geometries", "why_tests_cant": "a statement on all linear combinations over all bases; the matrices are assembled from many calls, each of which a test would check alone.", "anchors": ["libgrpp/overlap.c:libgrpp_overlap_integrals", "libgrpp/kinetic.c:libgrpp_kinetic_energy_integrals"]}
{"id": "C82", "title": "Integrals follow rigid motions", "statement": "When two linear combinations of basis functions are carried along by a rotation, reflection and translation, the overlap and kinetic energy elements between them, as computed by the library, do not change, and the three momentum elements rotate like a vector. For every orthogonal matrix one table, the expansion of rotated monomials in monomials, gives the blocks of every pair of shells from the blocks of the moved shells.", "quantifier": "all orthogonal matrices, all translations, all shells with L <= 9, all combinations", "why_tests_cant": "the Cartesian components are treated axis by axis with different code paths per axis; the claim is over a continuum of rotations that mix all components of a shell.", "anchors": ["libgrpp/overlap.c:libgrpp_overlap_integrals", "libgrpp/kinetic.c:libgrpp_kinetic_energy_integrals", "libgrpp/momentum.c:libgrpp_momentum_integrals"]}
{"id": "C83", "title": "GRPP matrices are Hermitian", "statement": "When the two shells are exchanged, the averaged matrix returned for a full GRPP operator is transposed, and the three spin-orbit matrices are transposed and change sign, up to the sum of the errors of the two calls (explicit functions of the accuracy of the radial tables and of the local part); both calls succeed in either order.", "quantifier": "all shells with L <= 9, all operators within the limits of the tables, outercore potentials included, all geometries", "why_tests_cant": "the two orders run through different radial tables and angular sums; a test compares a few pairs with a tolerance.", "anchors": ["libgrpp/full_grpp_integrals.c:libgrpp_full_grpp_integrals", "libgrpp/type2_integrals.c:libgrpp_type2_integrals", "libgrpp/spin_orbit_integrals.c:libgrpp_spin_orbit_integrals", "libgrpp/outercore_integrals.c:libgrpp_outercore_potential_integrals"]}
{"id": "C84", "title": "GRPP matrices follow rotations, reflections and translations", "statement": "When the operator and both shells are carried along by a rigid motion (rotation, possibly with a reflection, and translation), the averaged matrix of a full GRPP operator is the matrix of the moved problem with the Cartesian components of both shells recombined as rotated monomials are, and the three spin-orbit matrices in addition rotate into each other as the components of an axial vector (with the sign of the determinant), up to the errors of the two calls (explicit functions of the accuracy of the radial tables and of the local part); the exact operator has this symmetry exactly, outercore potentials included.", "quantifier": "all orthogonal matrices and translations, all pairs of shells with L <= 9, all operators within the limits of the tables, all geometries, second call on any heap reached in between", "why_tests_cant": "a test compares a few geometries with a tolerance; the routines single out the z axis (real spherical harmonics, angular tables) and a wrong sign or phase shows only in some orientations and components.", "anchors": ["libgrpp/full_grpp_integrals.c:libgrpp_full_grpp_integrals", "libgrpp/type1_mcmurchie_davidson.c:libgrpp_type1_integrals_mcmurchie_davidson_1978", "libgrpp/type2_integrals.c:libgrpp_type2_integrals", "libgrpp/spin_orbit_integrals.c:libgrpp_spin_orbit_integrals", "libgrpp/outercore_integrals.c:libgrpp_outercore_potential_integrals"]}
{"id": "C85", "title": "GRPP integrals evaluated by several threads at once are those of separate calls", "statement": "The library is announced as thread safe: when several threads evaluate the integrals of a full GRPP operator at the same time, each making any number of calls on shells and operators which no thread frees or edits, every thread gets the matrices which its calls give when made alone.", "quantifier": "any number of threads and of calls per thread, all shells and operators, all orders in which the threads access the shared objects", "why_tests_cant": "an interleaving which goes wrong is rare and cannot be forced by a test; the origin of the outercore shells of the operator is overwritten in place at every call, which is harmless until two atoms of one element share the operator object.", "anchors": ["libgrpp/outercore_integrals.c:libgrpp_outercore_potential_integrals", "libgrpp/outercore_integrals.c:libgrpp_outercore_potential_integrals_part_1", "libgrpp/outercore_integrals.c:libgrpp_outercore_potential_integrals_part_2", "libgrpp/full_grpp_integrals.c:libgrpp_full_grpp_integrals"]}
{"id": "C86", "title": "The Fortran module agrees with the C interface", "statement": "Outercore integrals obtained through the Fortran module from arrays with one row per outercore shell are those of the C routine for the potentials and shells described by the rows, whatever the padding of the rows, and no temporary object survives; likewise the outercore gradient routine gives the derivative; entry points which set parameters or return scalars of the nuclear models give the values of the C functions, also when the result variable is one of the arguments.", "quantifier": "all shells, all numbers of outercore shells, all arrays which hold at least the stated numbers of primitives, all previous contents of the matrices and variables", "why_tests_cant": "the test program of the Fortran interface compares energies of one molecule; it never calls the gradient routine of the module, and array sections, 1-based rows and padding are exercised with one shape only.", "anchors": ["test_libgrpp_f90/libgrpp.f90:libgrpp_outercore_potential_integrals", "test_libgrpp_f90/libgrpp.f90:libgrpp_outercore_potential_integrals_gradient", "libgrpp/fortran.c:libgrpp_outercore_potential_integrals_part_1_", "libgrpp/fortran.c:libgrpp_outercore_potential_integrals_part_2_", "libgrpp/fortran.c:libgrpp_estimate_fermi_model_parameters_"]}
{"id": "C87", "title": "Attraction to a nucleus is negative, symmetric and independent of the frame", "statement": "For every basis of Gaussian functions the matrix of the attraction to a point charge computed by the library has no positive expectation value, is symmetric, and the matrix element between two functions does not change when both functions and the charge are rotated, reflected or shifted together; all up to the stated errors of the elements.", "quantifier": "all shells up to L = 9 with positive exponents within the range of the Boys function, all linear combinations, all positions and charges, all orthogonal matrices and translations", "why_tests_cant": "a test compares a few matrix elements with reference values; the sign of all expectation values and the behaviour under all rigid motions are statements about infinitely many matrices at once.", "anchors": ["libgrpp/nuclear_attraction.c:libgrpp_nuclear_attraction_integrals_point_charge", "libgrpp/type1_mcmurchie_davidson.c:evaluate_rpp_type1_mmd_n1_primitive_shell_pair"]}
{"id": "C88", "title": "Finite nuclei attract, less than a point nucleus, symmetrically and independently of the frame", "statement": "For every basis of Gaussian functions and every nuclear charge distribution the library offers, the computed attraction matrix has no positive expectation value, is symmetric, and its elements do not change when both functions and the nucleus are rotated, reflected or shifted together. Of two nuclei at the same place the one whose potential is lower everywhere has the lower expectation value for every combination of basis functions; in particular no distribution attracts more than the point nucleus. All up to the stated errors of the elements.", "quantifier": "all shells up to L = 9 with L_A + L_B <= 14 and positive exponents, all linear combinations, all models with positive parameters, all positions and charges, all orthogonal matrices and translations", "why_tests_cant": "a test compares a few elements for one model; order relations between the matrices of different models and behaviour under all rigid motions concern infinitely many matrices.", "anchors": ["libgrpp/nuclear_attraction.c:libgrpp_nuclear_attraction_integrals", "libgrpp/nuclear_models.c:libgrpp_coulomb_potential_ball", "libgrpp/type1_integrals.c:evaluate_radially_local_potential_integral_primitive_gaussians"]}
{"id": "C89", "title": "Overlap, local-potential and point-charge integrals are integrals over space around the centre of the potential; the two routines for a point nucleus agree", "statement": "Every overlap integral, every integral of a local pseudopotential and every integral of the attraction to a point charge which the library returns is the integral over space, taken in spherical coordinates around the centre of the potential, of bra times ket times the radial function of the potential, up to the stated error of the special functions. Therefore the analytical routine for a point charge and the numerical routine for nuclear models, called with the point model, return the same matrix elements between any linear combinations of basis functions up to their errors, and no finite nucleus attracts more than the analytically treated point charge.", "quantifier": "all shells up to L = 9 (L_A + L_B <= 15 for local potentials, <= 14 for the numerical routine) with positive exponents, all linear combinations, positions, charges, potentials with powers 0, 1, 2, and models", "why_tests_cant": "the two routines use different algorithms in different coordinates; comparing numbers for a few shells cannot show that both compute the same integral for all shells and positions.", "anchors": ["libgrpp/nuclear_attraction.c:libgrpp_nuclear_attraction_integrals", "libgrpp/type1_mcmurchie_davidson.c:libgrpp_type1_integrals_mcmurchie_davidson_1978", "libgrpp/type1_integrals.c:evaluate_radially_local_potential_integral_primitive_gaussians", "libgrpp/overlap.c:libgrpp_overlap_integrals"]}
{"id": "C90", "title": "Expectation values of a pseudopotential follow the order of its potentials, lie between those of local potentials that bound it, and its spin-orbit part has none over real functions", "statement": "From the matrix elements which the library writes for a whole pseudopotential one gets, for every linear combination of basis functions and up to the stated errors: the element of the operator between the combinations; a value that is not negative when the local and all averaged potentials are nowhere negative; a value that does not decrease when the local or any averaged potential is raised; a value between those of two purely local operators whenever their potentials enclose U_L and all U_L + U_l (the projectors of different angular momenta are orthogonal and together at most the identity); and zero for each spin-orbit component.", "quantifier": "all lists of basis functions with any real coefficients, all positions, all operators within the limits of C78 (outercore potentials, where present, the same in both operators), all sequences of earlier calls with the operator", "why_tests_cant": "a test evaluates a few matrices; definiteness and order of the quadratic form over all coefficient vectors and all potentials cannot be sampled, and a wrong projector weight or a missing m component would still give plausible numbers", "anchors": ["libgrpp/full_grpp_integrals.c:libgrpp_full_grpp_integrals", "libgrpp/type2_integrals.c:libgrpp_type2_integrals", "libgrpp/spin_orbit_integrals.c:libgrpp_spin_orbit_integrals", "libgrpp/type1_mcmurchie_davidson.c:libgrpp_type1_integrals_mcmurchie_davidson_1978"]}
{"id": "C91", "title": "A function at the centre of a pseudopotential feels only the potentials of the angular momenta it contains", "statement": "If one of the two basis functions is placed at the pseudopotential, the matrix element which the library writes depends, up to the stated errors, only on the potentials U_L + U_l (or the spin-orbit potentials) of those angular momenta l which are contained in the Cartesian functions placed there (l = L, L - 2, ...): two operators which agree for these l give the same element, for instance a purely local potential and the same potential written as a projected one; if these potentials vanish, the element vanishes.", "quantifier": "all shells and positions of the other function, all operators within the limits of C78 (outercore potentials, where present, the same in both operators), all components of all shells, all sequences of earlier calls with the operator", "why_tests_cant": "it compares two different algorithms (the local part by Hermite Gaussians, the semilocal part by angular and radial quadrature) over all operators; agreement for some operators does not exclude a wrong weight of one angular momentum", "anchors": ["libgrpp/full_grpp_integrals.c:libgrpp_full_grpp_integrals_shell_pair", "libgrpp/type2_integrals.c:libgrpp_type2_integrals", "libgrpp/spin_orbit_integrals.c:libgrpp_spin_orbit_integrals", "libgrpp/type1_mcmurchie_davidson.c:libgrpp_type1_integrals_mcmurchie_davidson_1978"]}
{"id": "C92", "title": "The gradient of the overlap is the momentum matrix", "statement": "For two shells at different places the gradient of the overlap matrix which the library returns for the centre of the ket is exactly the matrix of momentum integrals (imaginary part, sign included) which it returns for the same pair, for the centre of the bra it is the negative of that matrix, for any other point it is zero.", "quantifier": "all pairs of shells with L_A <= 8, L_B <= 9, all exponents, coefficients and positions, all components and directions, all points", "why_tests_cant": "the two routines use different intermediate quantities (overlaps of differentiated shells, derivatives of one-dimensional tables); a comparison on samples does not show that they agree for every component, including those at the borders of the tables", "anchors": ["libgrpp/overlap_gradient.c:libgrpp_overlap_integrals_gradient", "libgrpp/momentum.c:libgrpp_momentum_integrals"]}
{"id": "C93", "title": "Kinetic energy and momentum integrals are accurate in double precision", "statement": "Computed in IEEE double precision with an exp and pow accurate to one unit in the last place, the kinetic energy and momentum matrices of two shells are obtained without overflow, nothing else is written, and each element differs from the exact integral by at most a small explicit number of units of roundoff, growing linearly with L_A + L_B and with the number of pairs of primitives, times the natural scale of the integral; the kinetic energy of a normalised s function at the origin is right to 4e-13.", "quantifier": "all pairs of shells with L_A, L_B <= 9 and L_A + L_B <= 14 (16 for momentum), coefficients up to 1e6, exponents from 1e-8 to 1e10, coordinates up to 1e4, up to 10000 pairs of primitives, every library exp and pow with that accuracy", "why_tests_cant": "rounding errors depend on the inputs in a way no sample covers, and the reference values of tests are themselves rounded", "anchors": ["libgrpp/kinetic.c:libgrpp_kinetic_energy_integrals", "libgrpp/kinetic.c:kinetic_energy_integrals_shell_pair_obara_saika", "libgrpp/momentum.c:libgrpp_momentum_integrals", "libgrpp/momentum.c:momentum_integrals_shell_pair_obara_saika"]}
{"id": "C94", "title": "The Boys function is accurate in double precision", "statement": "Computed in IEEE double precision with a pow accurate to one unit in the last place, the Boys function of order n at x is obtained without overflow and differs from the integral of t^(2n) exp(-x t^2) from 0 to 1 by at most 2e-14; the routine that fills an array with all orders writes these values and nothing else.", "quantifier": "all real x in [0,30] and orders 0..33, all x in (30,1e9] and orders 0..15, every library pow with that accuracy", "why_tests_cant": "tests sample a few arguments and compare with rounded references; the bound must hold between all grid points of the table and for the rounding of the table itself", "anchors": ["libgrpp/specfunc_boys.c:boys_function", "libgrpp/specfunc_boys.c:boys_values", "libgrpp/specfunc_boys.c:boys_table"]}
{"id": "C95", "title": "The value of a potential is accurate in double precision", "statement": "Computed in IEEE double precision with an exp and pow accurate to one unit in the last place, libgrpp_potential_value returns without overflow a number that differs from the sum of c r^(n-2) exp(-a r^2) over the n terms of the potential by at most 9 + 2 n units of roundoff times the sum of (|c| + 1e-30) r^(n-2).", "quantifier": "all potentials with up to 1000 terms, powers 0..10, coefficients up to 1e10, exponents from 1e-8 to 1e10, all radii from 1e-10 to 1e4, every library exp and pow with that accuracy", "why_tests_cant": "cancellation between terms and rounding in the exponent depend on the inputs in a way no sample covers", "anchors": ["libgrpp/potential.c:libgrpp_potential_value"]}
{"id": "C96", "title": "Normalising coefficients touches nothing else, and type-2 integrals never change their inputs", "statement": "libgrpp_shell_mult_normcoef multiplies each coefficient by the norm of its own primitive and changes nothing else in memory; the new coefficients describe with plain Gaussians the function the old ones describe with normalised Gaussians; a second call multiplies once more. The type-2 radial routine makes a shrunk potential and two such copies of its shells without changing any of the caller's objects, also when bra and ket are the same shell, and frees exactly what it made.", "quantifier": "all heaps, all shells and potentials with any number of primitives and any coefficients and exponents, all component orders", "why_tests_cant": "the absence of side effects on every other object and of leaks is a statement about all of memory; a call on the caller's shell instead of the copy shows only in a later use of that shell", "anchors": ["libgrpp/shell.c:libgrpp_shell_mult_normcoef", "libgrpp/radial_type2_integral.c:tabulate_radial_type2_integrals"]}
{"id": "C97", "title": "The screening of type-2 radial integrals searches for the maximum of the integrand", "statement": "Every step of the search made before a type-2 radial integral is computed increases the radius exactly where the integrand of that primitive integral increases, decreases it exactly where it decreases and rests exactly at its stationary points; the estimate is the integrand at the radius reached by a step of at most 0.01, times the width of the Gaussian; with both shells on the centre of the potential it is the integral itself.", "quantifier": "all powers, orders of the Bessel functions, exponents, distances and radii", "why_tests_cant": "a wrong sign or factor in the transcendental equation moves the estimate off the maximum but leaves most integrals unchanged, since the estimate is used only to skip small ones", "anchors": ["libgrpp/screening.c:screening_type2_equation_for_maximum", "libgrpp/screening.c:screening_radial_type2_integral_primitive"]}
{"id": "C98", "title": "One-electron matrices stay symmetric in double precision", "statement": "Computed in IEEE double precision with an exp and pow accurate to one unit in the last place, the overlap and kinetic energy matrices for (A, B) and (B, A) are transposes of each other and the momentum matrices negative transposes, up to about a hundred units of roundoff times the size of the terms; neither call overflows.", "quantifier": "all pairs of shells with L up to 9 (kinetic energy: L_A + L_B up to 14, momentum: up to 16), up to 10000 pairs of primitives, coefficients up to 1e6, exponents from 1e-8 to 1e10, coordinates up to 1e4, every library exp and pow with that accuracy", "why_tests_cant": "the kinetic and momentum routines treat the two shells differently, so the two results are computed from different terms; a sample shows only the asymmetry of its own geometry", "anchors": ["libgrpp/overlap.c:libgrpp_overlap_integrals", "libgrpp/kinetic.c:libgrpp_kinetic_energy_integrals", "libgrpp/momentum.c:libgrpp_momentum_integrals"]}
{"id": "C99", "title": "Normalised coefficients are accurate in double precision", "statement": "Computed in IEEE double precision with a pow accurate to one unit in the last place, libgrpp_shell_mult_normcoef multiplies every coefficient by the norm of its primitive without overflow and with an error of at most 15 units of roundoff times (|c| + 1e-30) times the norm, and changes no block of memory other than the array of coefficients.", "quantifier": "all shells with L up to 9, any number of primitives, coefficients up to 1e6, exponents from 1e-8 to 1e10, every library pow with that accuracy", "why_tests_cant": "the norm ranges over many orders of magnitude with the exponent and L; a sample shows the error and the absence of overflow at its own points only", "anchors": ["libgrpp/shell.c:libgrpp_shell_mult_normcoef", "libgrpp/norm_gaussian.c:gaussian_norm_factor"]}
