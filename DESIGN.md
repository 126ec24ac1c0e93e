# Formal model of libgrpp in Rocq (Coq 8.16.1)

## 1. Method

The C sources in /repo/libgrpp are read as text and transcribed, function by
function, into total Gallina functions (`rocq/theories/*Model.v`).  Loops are
transcribed as loops (`for_range`), C arrays as bounded arrays whose cells may
be uninitialised, and undefined behaviour / process termination as an explicit
outcome:

    Inductive res A := Ok (a : A) | Fail (f : fault).
    fault = OutOfBounds | Uninitialised | AssertFailed | ProcessExit
          | UseAfterFree | DoubleFree | NullDeref | WrongObject
          | DivByZero | NoFuel

`WrongObject` is an access to a block with the type of another one, `NoFuel` the
exhaustion of the fuel of a loop without a static bound (theorems show that it
does not occur, or quantify over the fuel).

So "memory safe" is a theorem `exists v, f x = Ok v`, and "does not abort" the
same.  Where the full statement of a property is false of the code, the theorem
is `..._refuted` with a concrete witness and, beside it, the strongest true
version (`_partial` when it is a part of the claim).

### Numbers

* C `int` is `Z` (no 32-bit wraparound unless stated; index arithmetic of the
  library stays far below 2^31 for the shells considered).  `uint64_t` in
  binomial.c is modelled with its 2^64 wraparound.
* C `double` and `long double` are `R` (exact real arithmetic, Coq.Reals),
  except in the files named Float*: rounding and infinities are NOT modelled and
  the numerical theorems other than C79, C80, C93, C94, C95, C98 and C99 say "in exact arithmetic".  Literals (1e-14, tables of coefficients, ...) are the exact
  decimal numbers.  `M_PI` is `PI`; `exp`, `sqrt`, `pow` are the real functions.
  A comparison with NaN in the screening loops is modelled by `None` for the
  value.  `LDBL_EPSILON` is 2^-63.
* FloatBase.v models arithmetic in double precision: `fl x` is the result of an
  operation whose exact result is x, namely x rounded to nearest even in Flocq's
  format with 53 digits and least exponent -1074, or the fault `Overflow` when
  this does not fit into a double.  Models in the files Float* round every
  operation and every literal, in the order of the source, without fused
  multiply-add and without extended precision.
* Tables that are transcribed literally: Boys function, asymptotic Bessel
  coefficients, Chebyshev coefficients of Dawson's integral, the functions S_k
  of the Fermi model (FermiTable.v), the Bessel functions (BesselRows1-4.v).
  The theorems C38 and C60 hold for any Bessel table and carry its error; C74
  bounds that error for the literal table.

### Specifications

Every property is stated against a small separate specification (`*Spec.v` or
the head of the file with the main theorem): true integrals (limits of Riemann
integrals over growing intervals, iterated three times for integrals over
space), integrals over the sphere, true derivatives (`is_derive`), mathematical
enumeration predicates (`NoDup`, membership), heap-history predicates, etc.
Property theorems live in `Properties_*.v`, each closed by `exact lemma`,
followed by `Print Assumptions` and by `Example`s showing that the hypotheses
are met by a concrete case.

## 2. Trusted base

* Coq 8.16.1's kernel (and `coqchk`).  No axioms are added.
* Axioms reported by `Print Assumptions`: only those of the standard library
  (section 6 lists them for each theorem):
  `ClassicalDedekindReals.sig_forall_dec`,
  `ClassicalDedekindReals.sig_not_dec`,
  `FunctionalExtensionality.functional_extensionality_dep`,
  `Classical_Prop.classic`.
* That the Gallina transcription matches the C text (each definition cites file
  and lines), and that exact reals are an acceptable idealisation of `double`.

## 3. Plan per property

| id | model | how it is proved |
|----|-------|------------------|
| C01 | both generators as triple loops writing into a bounded int array | loop invariant; spec = NoDup + membership + length |
| C02 | same | both equal one canonical list |
| C03 | `nlm_to_linear` with its own regenerated list | from C01 (NoDup) |
| C04 | `binomial`, `gcd_ui` on Z mod 2^64 with explicit wraparound and fuel | loop invariant r = C(n, d) ; overflow branch analysis |
| C05 | table + recursion | induction; table checked by computation |
| C06 | heap with blocks; constructors/destructors as heap programs | separation of footprints, induction over histories |
| C07, C08 | in-place compaction loop on arrays | loop invariant against `filter`; error bound by induction |
| C09-C11 | heap model of grpp.c; histories = lists of operations | invariant by induction over histories; refutations by computation |
| C12, C13 | small-step interleaving semantics of init/finalize/is_initialized with a critical section, table construction as several steps | invariant over reachable states |
| C14 | state machine of parameters | induction over histories |
| C15 | data flow of the tolerance argument | refutation |
| C16 | Obara-Saika loops on bounded scratch arrays with uninitialised cells | loop invariant; refuted at L=10 |
| C17-C23 | same model, values in R | Gaussian integral proved from scratch with Coquelicot; moment recurrences by integration by parts; symmetry from the integral |
| C24, C25 | differentiate_shell, overlap_gradient.c | derivative computation + product rule on closed recurrences |
| C26, C27, C31 | overlap_gradient / grpp gradient memory behaviour; the value read outside is a parameter `oob` (`None`: fault) | refutation by computation, exact condition for safety |
| C28 | full_grpp_integrals.c over a record of component routines | loop invariants |
| C29, C30 | gradient dispatcher; differentiated shells in the heap | case analysis, algebra; heap accounting; own type-1 and outercore routines instantiated |
| C32 | csh matrices and rsh transformation over complex numbers | index calculations for all L |
| C33, C34 | formula with asserting double factorial | Wallis integrals with Coquelicot; refutation for L_A + L >= 15 |
| C35-C37 | adaptive quadrature loops on arrays with capacity | loop invariants; sums over odd/even points |
| C38, C39, C60 | Bessel table lookup, derivative table, asymptotic sum | rounding inequality; derivative recurrences; Taylor remainder; induction on order |
| C76, C77 | grid sums for radial integrals | trapezoidal rule after the substitution, second derivatives of the substitution bounded, tails; refutation with tight Gaussians between the grid points |
| C79 | Bessel functions in double precision | running error bounds with Flocq; index computation by monotonicity of rounding |
| C80 | overlap integrals in double precision | running error calculus (FloatCalc: error as a multiple of a magnitude), induction over the recursion and the contraction loop |
| C81 | overlap and kinetic matrices positive definite over every basis | Gram form of products of one-dimensional functions, integration by parts for the kinetic energy, zero integral of a continuous non-negative function |
| C82 | overlap, kinetic and momentum integrals under rotations, reflections and translations | Gaussian moments of polynomials are invariant under orthogonal substitutions; functions of the class polynomial times Gaussian moved as a whole |
| C83 | exchange of the two shells in the GRPP matrices | uniqueness and symmetry of the operator of C78, errors of the two calls added |
| C84 | GRPP matrices under rigid motions | expansion of plane-wave factors and rotation of spherical harmonics, errors of the two calls added |
| C85 | Threads sharing an operator | loads and stores of the origins of the outercore shells, in any order |
| C86 | Fortran module and entry points for scalars | temporaries made for array sections, loops over rows, variables by address |
| C87 | Attraction to a point charge over a basis | linear combinations of basis functions, elements of C62 |
| C88 | Attraction to a finite nucleus over a basis | linear combinations of basis functions, elements of C68, the potentials of C71 |
| C89 | Cartesian, spherical and superposition integrals | the specifications of C17, C61, C62 and C68 are the same integrals |
| C90 | expectation values of the whole operator | operator inequalities carried over to the written elements |
| C91 | functions at the centre of the pseudopotential | only the potentials of the angular momenta contained in them act (Parseval's identity on the span of the harmonics) |
| C92 | overlap_gradient.c against momentum.c | both results in closed form |
| C93 | kinetic.c, momentum.c, rounded | every floating point operation rounded to binary64 (round to nearest even, overflow a fault), in the order of the source without contraction into fused operations; exp and pow of the C library accurate to one unit in the last place |
| C94 | specfunc_boys.c, rounded | every floating point operation and every literal of the table rounded to binary64 (round to nearest even, overflow a fault), in the order of the source without contraction into fused operations; pow of the C library accurate to one unit in the last place |
| C95 | potential.c 70-81, rounded | every floating point operation rounded to binary64 (round to nearest even, overflow a fault), in the order of the source without contraction into fused operations; exp and pow of the C library accurate to one unit in the last place |
| C96 | shell.c 86-92; radial_type2_integral.c 164-172, 201-203 | the heap operations of making and deleting the inputs of a type-2 radial table; pow of a positive base |
| C97 | screening.c 272-378, stationary points | with the exact Bessel functions in place of the tabulated ones |
| C98 | overlap.c, kinetic.c, momentum.c, both orders of the shells, rounded | the models of C80 and C93 |
| C99 | shell.c 86-92, rounded | every floating point operation rounded to binary64 (round to nearest even, overflow a fault); pow of the C library accurate to one unit in the last place |
| C78 | full GRPP integrals and gradients with the own routines | composition of C28/C29 with C59, C62-C66, C73, C74; bilinearity of the operator on functions gives the gradients |
| C74, C75 | the 96060 tabulated Bessel values | residues of the three-term recurrence summed by computation; energy identity for the errors; the relation of the values of order 0 at neighbouring arguments |
| C40-C43, C61-C63 | setup_E/R/G arrays, primitives for n = 0, 1, 2, contraction | loop invariants; Hermite Gaussian expansion; Gaussian and Boys integrals |
| C44 | Boys lookup, literal table | certificate by interval-free rational bounds; Taylor remainder; refutation by abort |
| C45 | Clenshaw loop | induction |
| C46 | gfun recurrences | algebra; error amplification |
| C47, C57 | potentials, densities and radii of nuclear models | derivatives, limits, series S_k |
| C48, C56 | dispatch of nuclear_attraction.c over universally quantified primitive routines | refutation; data-flow theorem |
| C49-C51, C59 | outercore_integrals.c over a type-1 routine `t1` (instantiated with the library's) | algebra over blocks; Gaussian moments on the half line |
| C52 | points_are_equal | real inequalities |
| C53, C67 | Fortran wrappers as heap programs | refinement; radial normalisation integral |
| C54, C58 | coefficient formula, evaluation, angular integrals | integrals over the sphere; harmonicity, orthonormality |
| C55 | helper loops | loop invariants |
| C64, C65 | type2_integrals.c, spin_orbit_integrals.c | plane-wave expansion (Funk-Hecke, addition theorem), projections, error propagation |
| C68 | radially local integrals on a grid, called by nuclear_attraction.c | plane-wave expansion of the product of the two Gaussians; angular integrals as integrals over the sphere; error propagation |
| C69, C72 | table lookup and Taylor formula, literal table | certificate: downward recurrence of a Taylor step with error intervals in integers, checked against the table by computation; asymptotic tails |
| C73 | specfunc_dawson.c, literal coefficients | residual in the equation D' = 1 - 2xD of every piece, computed in integers in the Chebyshev basis; comparison of solutions |
| C70 | formulas of nuclear_models.c with the tabulated S_k | propagation of the relative error |
| C71 | potentials of nuclear_models.c | Poisson equation, monotonicity |
| C66 | lmatrix.c against the harmonics | derivative along rotations |

## 4. What is modelled

| file in libgrpp/ | model | remarks |
|---|---|---|
| angular_integrals.c | SphModel | all |
| binomial.c, factorial.c | BinomModel | all |
| diff_gaussian.c, overlap_gradient.c | OvGradModel, CartModel (nlm_to_linear) | all; also several threads (OvThreads) |
| fortran.c | FortranModel, FortranModule | all; the wrappers of init and finalize (62-71) are calls without arguments |
| test_libgrpp_f90/libgrpp.f90 | FortranModule | 260-417; array sections are passed as contiguous copies |
| full_grpp_integrals.c, grpp_integrals_gradient.c | GrppModel | all; buffers local to one function are local arrays |
| grpp.c, shell.c, potential.c | HeapModel | all; struct fields are read and written as a whole, malloc succeeds, addresses are not reused |
| init_finalize.c | InitModel | interleaving semantics, sequentially consistent |
| kinetic.c, momentum.c, overlap.c, norm_gaussian.c | OneElModel | all |
| lmatrix.c, utils.c | LmatModel, OneElModel | all but the allocation helpers (calloc is a fresh zero array) |
| nuclear_attraction.c | NucModel | all; the two primitive routines are parameters in C48, C56, the point-charge one is instantiated in C62, the quadrature on a grid in C68 |
| nuclear_models.c | NucModel | all; S_k is a parameter: the exact series in C47, C57, C68, the tabulated function in C70 |
| outercore_integrals.c | OutercoreModel | all |
| parameters.c | ParamsModel, CartModel | all |
| radial_type1_integral.c, radial_type2_integral.c, screening.c | RadialModel | grids, quadrature, tabulation; scaled Bessel function and erf are arguments; the type-1 screening functions 73-186, which nothing calls, are not modelled |
| specfunc_boys.c, specfunc_gfun.c, specfunc_scaled_mod_sph_bessel.c | SpecModel | literal tables; bessel_table_0 (BesselData) is an argument of the routine which copies it; the Dawson function in gfun is an argument |
| specfunc_dawson.c | DawsonModel, DawsonTable | all; in line 440 a comma is missing between two literals, so C adds them, and so does the model |
| specfunc_scaled_mod_sph_bessel.c, rounded | FloatBessel | all |
| overlap.c, norm_gaussian.c, utils.c (daxpy), rounded | FloatOneEl | all; `exp` and `pow` are parameters accurate to one unit in the last place |
| specfunc_bessel_table.c | BesselRow, BesselRows1-4, BesselData | the literal table, transcribed mechanically |
| specfunc_fermi_sk.c | FermiSkModel, FermiTable | all |
| spherical_harmonics.c | SphModel | all |
| spin_orbit_integrals.c, type2_integrals.c | Type2Model | all; the common loops are modelled once |
| type1_integrals.c, type1_mcmurchie_davidson.c | MmdModel, LocalModel | all but type1_integrals.c 108-137, which nothing calls; the scaled Bessel function called by the quadrature is an argument |

Not modelled: floating-point rounding (except in the files Float*); printing; memory models weaker than
sequential consistency; the test programs; 32-bit overflow of index arithmetic;
failure of malloc.

Integrals over the product of a singular kernel and Gaussians (C61, C62) are
stated with the kernel written as an integral of Gaussians over an auxiliary
variable and the auxiliary integration taken last (`kernel_int`). C89 proves
that these are the integrals over space of the kernel itself, in spherical
coordinates around its centre.

## 5. Defects found

These are theorems (refuted properties) or remarks in the models.

* outercore_integrals.c, part 2: the expansion coefficients of the first
  outercore shell are applied to the second one.
* overlap_gradient.c and grpp_integrals_gradient.c read elements outside the
  matrix of the lowered shell (then multiplied by zero) for every shell with
  L > 0 (C26, C31).
* The E table of the one-electron and local integrals overruns at the documented
  maximum L = 10 (C16, C63); local integrals abort for L_A + L_B >= 16 with a
  Boys argument above 30 (C44, C63).
* The README and the manual announce thread safety, but every call with an
  outercore potential writes the centre into the outercore shells of the operator
  object, so two threads which use one operator at two atoms can get wrong
  integrals (C85).
* The Fortran module's routine for outercore gradients has an empty body and leaves
  its twelve result matrices as they were (C86).
* The tolerance set by the user is ignored by the type-2 tables (C15).
* The convenience routines for finite nuclei pass shifted parameters (C48), and
  a screened-out pair of primitives gives a zero matrix (C56).
* The angular integrals abort for L_A + L >= 15 (C34), the integrals of finite
  nuclei for L_A + L_B >= 15 (C68).
* Table of Bessel functions: for order 2 and arguments around 0.3 only 11-12 of
  the 17 printed digits are correct (C75).
* The adaptive quadrature accepts a value once two successive grids agree; two
  tight s functions away from the potential fall between the points of both
  grids and the accepted value is wrong by more than 1/8 (C77).
* The asymptotic Bessel formula is meaningless for orders of 40 and more just
  above x = 16 (C60).
* The Taylor formula for S_k is less accurate than documented: 2e-11 instead of
  1e-12 for k = 7 near x = 0 (C72); arguments x >= 0.005 are looked up beyond
  the end of the table (C69).
* specfunc_dawson.c line 440: missing comma between two coefficients.
* GRPP containers: see C10, C11; normalising outercore functions overruns a
  table for L >= 20 (C51).

## 6. Assumptions of each theorem

As printed by `Print Assumptions`, which follows every theorem in the property files.

* **A** (27 theorems): none, closed under the global context
* **B** (5 theorems): `ClassicalDedekindReals.sig_forall_dec`
* **C** (24 theorems): `ClassicalDedekindReals.sig_forall_dec`, `FunctionalExtensionality.functional_extensionality_dep`
* **D** (25 theorems): `ClassicalDedekindReals.sig_forall_dec`, `ClassicalDedekindReals.sig_not_dec`, `FunctionalExtensionality.functional_extensionality_dep`
* **E** (216 theorems): `ClassicalDedekindReals.sig_forall_dec`, `ClassicalDedekindReals.sig_not_dec`, `Classical_Prop.classic`, `FunctionalExtensionality.functional_extensionality_dep`

| property | theorems (class) |
|---|---|
| C01 Cartesian component enumeration is complete and exact | C01_components_complete (A), C01_buffer_exactly_filled (A), C01_harmonic_combinations_complete (A) |
| C02 The two selectable Cartesian orders coincide | C02_orders_coincide (A), C02_position_of_component (A) |
| C03 Exponent triple to matrix index lookup is the inverse of the component list | C03_lookup_found (A), C03_lookup_missing (A) |
| C04 Binomial coefficients are exact or flagged, never silently wrong | C04_binomial_exact_or_zero (A), C04_choose_is_factorial_quotient (A) |
| C05 Factorials, factorial ratios and double factorials | C05_factorial (A), C05_factorial_ratio (A), C05_double_factorial (A) |
| C06 Shell objects own independent copies of the caller's data | C06_new_shell_owns_copies (B), C06_deep_copy_independent (B) |
| C07 Shrinking a shell drops exactly the negligible primitives | C07_shrink_keeps_exactly_large (C), C07_shrink_idempotent (C), C07_shrink_value_error (C) |
| C08 Constructing or shrinking a potential preserves its radial function | C08_constructor_keeps_terms (C), C08_shrink_keeps_terms (C), C08_value_is_radial_sum (D), C08_constructor_value_error (D), C08_shrink_value_error (D) |
| C09 GRPP ownership protocol is memory safe and leak free | C09_client_program_safe_and_leak_free (C), C09_client_contents (C), C09_delete_null (A) |
| C10 Capacity of a GRPP object | C10_capacity_overflow (C), C10_capacity_refuted (C) |
| C11 Re-setting the same local potential | C11_reset_same_local_refuted (C) |
| C12 Concurrent initialisation builds the tables once and completely | C12_complete_when_reported (A), C12_tables_built_once (A), C12_harmonic_tables_built_once_ever (A), C12_no_deadlock (A), C12_executions_bounded (A) |
| C13 Finalise / re-initialise histories | C13_flag_follows_last_call (A), C13_answers_right (A), C13_constructions_counted (A), C13_sequential_history (A), C13_histories_complete (A) |
| C14 Library parameters are independent and sticky | C14_parameters_sticky (C), C14_bad_order_aborts (C), C14_from_program_start (C), C14_defaults_restore_the_start (C) |
| C15 The radial tolerance parameter governs the semilocal quadrature | C15_ignored (E), C15_refuted (E) |
| C16 One-electron integrals are memory safe up to the documented angular momentum | C16_safe_up_to_L9_partial (E), C16_overrun_at_L10 (E), C16_documented_maximum_refuted (E) |
| C17 Overlap integrals are the true integrals | C17_overlap_is_the_integral (E) |
| C18 Overlap is symmetric | C18_exchange_transposes (E), C18_overlap_symmetric (E) |
| C19 Kinetic-energy integrals are the true integrals and symmetric | C19_kinetic_symmetric (E), C19_kinetic_is_the_integral (E) |
| C20 Momentum integrals are the true integrals and anti-symmetric | C20_momentum_antisymmetric (E), C20_momentum_is_the_integral (E) |
| C21 Translation invariance of one-electron integrals | C21_translation_invariance (E) |
| C22 Bilinearity in contraction coefficients and splitting of contractions | C22_additive_in_bra (E), C22_additive_in_ket (E), C22_homogeneous_in_bra (E), C22_homogeneous_in_ket (E) |
| C23 Primitive Gaussians are normalised | C23_self_overlap (E), C23_s_normalised (E) |
| C24 Differentiated shells represent the true derivative | C24_differentiated_shells (E) |
| C25 Overlap gradients are the true derivatives | C25_overlap_gradient_is_the_derivative (E), C25_separately_created_shells_are_separate (B) |
| C26 Overlap gradient never touches memory outside its matrices | C26_s_bra_is_safe_partial (E), C26_every_other_bra_overruns (E), C26_overlap_gradient_memory_refuted (E) |
| C27 Overlap gradient is safe to call from several threads on the same shells | C27_threads_with_own_bra_shells_partial (A), C27_executions_complete (A), C27_shared_bra_shell_refuted (A) |
| C28 Full GRPP integrals are the sum of their parts | C28_sum_of_parts (E), C28_missing_parts (E), C28_library_not_initialised (E) |
| C29 GRPP gradients: coincidence cases and translational sum rule | C29_derivatives (E), C29_zero (E), C29_translation (E) |
| C30 Separate gradient entry points agree with the full one | C30_with_own_dawson (E), C30_local (E), C30_averaged (E), C30_spin_orbit (E), C30_outercore (E), C30_local_own_routine (E), C30_local_gaussian (E), C30_outercore_own_routine (E) |
| C31 GRPP gradients never touch memory outside their matrices | C31_bounds_checked (E), C31_refuted (E) |
| C32 Angular momentum matrices obey the rotation algebra | C32_real_harmonics (D), C32_complex_harmonics (D) |
| C33 Unit-sphere monomial integrals | C33_sphere_monomials (E), C33_value_unique (D) |
| C34 Semilocal integrals do not abort within the documented maxima | C34_no_abort_partial (E), C34_abort (E), C34_refuted (E) |
| C35 Adaptive radial quadrature (local potential): exact refinement and termination | C35_substitution (E), C35_quadrature (E), C35_table (E) |
| C36 Adaptive radial quadrature (semilocal): exact refinement and termination | C36_quadrature (E), C36_doublings (E) |
| C37 Radial integral tables: no collisions, no out-of-range access | C37_type1_entries (E), C37_type1_bounds (E), C37_type2_entries (E), C37_type2_one_center (E) |
| C38 Bessel table lookup and derivatives | C38_columns (E), C38_lookup (E) |
| C39 Large-argument Bessel formula | C39_difference (E), C39_outside (C) |
| C40 Local (type 1) integrals in the McMurchie-Davidson scheme: expansion coefficients | C40_expansion (E) |
| C41 Local (type 1) integrals for r^0 terms are the true integrals | C41_gaussian_terms (E) |
| C42 Type-1 integrals: linearity, absent potential, documented powers | C42_sum_over_terms (E), C42_null_potential (E), C42_other_powers (E), C42_other_power_first (E), C42_library_not_initialised (E) |
| C43 Hermite Coulomb auxiliary integrals | C43_coulomb_derivatives (E), C43_inverse_square_derivatives (E) |
| C44 Boys function lookup | C44_accuracy (E), C44_values (E), C44_abort (D), C44_outside (E) |
| C45 Chebyshev series evaluation and parity of Dawson's integral | C45_clenshaw (C), C45_chebyshev_polynomials (D), C45_dawson_odd (C), C45_dawson_total (C) |
| C46 G-function recurrences are consistent | C46_recurrence (E), C46_series (E), C46_small (E), C46_large (E) |
| C47 Electrostatic potentials of nuclear charge models | C47_conditions_determine_potential (E), C47_charged_ball (E), C47_gaussian (E), C47_fermi (E), C47_fermi_bubble (E), C47_fermi_bubble_norm (E) |
| C48 Nuclear attraction convenience routines use the parameters they are given | C48_general_routine (D), C48_point_charge_routine (D), C48_convenience_routines_partial (D), C48_last_parameter_ignored (D), C48_convenience_routines_refuted (D) |
| C49 Outercore integrals: selection rules and hermiticity | C49_exchange (E), C49_selection (E) |
| C50 One-centre outercore radial integrals are the true integrals | C50_radial (E) |
| C51 Outercore shells with large L | C51_limit (E), C51_refuted (E) |
| C52 Coordinate comparison used for centre coincidence | C52_equality_test (C), C52_reflexive (C), C52_symmetric (C), C52_not_transitive (C), C52_distance (D) |
| C53 Fortran interface equals the C interface | C53_objects (C), C53_one_electron (E), C53_nuclear_attraction (D), C53_local (E), C53_semilocal (E), C53_outercore_diagonal (E), C53_outercore_pair (E), C53_local_gradient (E), C53_semilocal_gradient (E), C53_spin_orbit_gradient (E), C53_single_overlap (E) |
| C54 Real spherical harmonics expansion | C54_tables (D), C54_coefficients (E), C54_evaluation (E), C54_array_evaluation (D), C54_orthonormal (E) |
| C55 Matrix helper routines | C55_matrix_product (B), C55_vector_update (B) |
| C56 Unknown nuclear model codes | C56_unknown_code_partial (D), C56_unknown_code_without_significant_pair (D), C56_unknown_code_refuted (D), C56_library_not_initialised (D) |
| C57 Root mean square radii of the nuclear charge models | C57_ball_rms (E), C57_gaussian_rms (E), C57_fermi_rms (E), C57_fermi_bubble_rms (E), C57_estimated_parameters (E), C57_estimate_refused (E) |
| C58 Angular integrals | C58_angular_type1 (E), C58_angular_type2 (E) |
| C59 Outercore operator | C59_with_own_type1 (E), C59_operator (E), C59_radial_norm (E) |
| C60 Scaled Bessel functions are accurate for every supported order | C60_accuracy (E), C60_high_orders (E) |
| C61 Local (type 1) integrals with 1/r and 1/r^2 terms | C61_with_own_dawson (E), C61_kernel_1 (E), C61_kernel_2 (E), C61_local_integrals (E), C61_local_integrals_range (E) |
| C62 Attraction to a point charge | C62_point_charge (E) |
| C63 Type-1 integrals and point-charge integrals exist for every documented angular momentum | C63_coulomb_abort (E), C63_point_charge_abort (E), C63_L10 (E), C63_refuted (E) |
| C64 Semilocal integrals are the projected integrals | C64_semilocal (E), C64_at_the_centre (E), C64_bound_exists (E) |
| C65 Spin-orbit integrals are matrix elements of U(r) P_L l P_L | C65_spin_orbit (E), C65_at_the_centre (E) |
| C66 Angular momentum matrices generate the rotations of the real spherical harmonics | C66_angular_momentum (E) |
| C67 Norm of a contracted radial function | C67_radial_norm (E) |
| C68 Nuclear attraction integrals of finite nuclei | C68_finite_nucleus_partial (E), C68_bounds_exist (E), C68_models_are_charge_like (E), C68_integral_is_unique (D), C68_large_momenta_abort (E), C68_finite_nucleus_refuted (E) |
| C69 Accuracy of the special function S_k(x) of the Fermi model | C69_tabulated_function (E), C69_other_orders_abort (D), C69_positive_arguments (D), C69_direct_summation (E) |
| C70 Fermi and Fermi bubble quantities computed with the tables | C70_fermi_density (E), C70_fermi_bubble_density (E), C70_fermi_radius (E), C70_fermi_bubble_radius (E), C70_fermi_potential (E), C70_fermi_bubble_potential (E) |
| C71 A spread out nucleus binds weaker than a point nucleus | C71_attractive_and_weaker_than_a_point_charge (E) |
| C72 Documented accuracy of the table of S_k(x) | C72_documented_accuracy_refuted (E) |
| C73 Dawson's integral to long double accuracy | C73_dawson_accuracy (E), C73_g_functions (E) |
| C74 Tabulated Bessel functions | C74_table (E), C74_routine (E) |
| C75 Digits of the tabulated Bessel functions | C75_digits_refuted (E) |
| C76 Radial quadrature converges to the integral | C76_limit (E), C76_rate (E), C76_semilocal (E), C76_semilocal_own (E), C76_local (E), C76_local_own (E) |
| C77 Accepted radial integrals are within the tolerance | C77_accepted_refuted (E), C77_table_refuted (E) |
| C78 GRPP integrals and gradients end to end | C78_integrals (E), C78_gradient (E), C78_semilocal_gradient (E), C78_spin_orbit_gradient (E), C78_bilinear (E), C78_errors_exist (E) |
| C79 Bessel functions in double precision | C79_double_precision (E) |
| C80 Overlap integrals in double precision | C80_overlap_double_precision (E), C80_s_normalised_double (E) |
| C81 Overlap and kinetic energy matrices are positive definite | C81_positive_definite (E), C81_cauchy_schwarz (E) |
| C82 Integrals follow rigid motions | C82_rigid_motion (E), C82_momentum_is_a_vector (E), C82_blocks (E) |
| C83 GRPP matrices are Hermitian | C83_hermitian (E) |
| C84 GRPP matrices follow rotations, reflections and translations | C84_operator (E), C84_blocks (E), C84_errors_exist (E) |
| C85 GRPP integrals evaluated by several threads at once are those of separate calls | C85_threads_partial (E), C85_finish (A), C85_shared_operator_refuted (E) |
| C86 The Fortran module agrees with the C interface | C86_outercore (E), C86_gradient_refuted (C), C86_scalars (E), C86_fermi_parameters (E) |
| C87 Attraction to a nucleus is negative, symmetric and independent of the frame | C87_attractive (E), C87_symmetric (E), C87_rigid_motion (E) |
| C88 Finite nuclei attract, less than a point nucleus, symmetrically and independently of the frame | C88_attractive (E), C88_symmetric (E), C88_rigid_motion (E), C88_order (E), C88_point_nucleus_attracts_most (E) |
| C89 Overlap, local-potential and point-charge integrals are integrals over space around the centre of the potential; the two routines for a point nucleus agree | C89_coordinates (E), C89_superpositions (E), C89_overlap (E), C89_local_potential (E), C89_point_charge (E), C89_two_routines (E), C89_finite_nuclei_attract_less (E) |
| C90 Expectation values of a pseudopotential follow the order of its potentials, lie between those of local potentials that bound it, and its spin-orbit part has none over real functions | C90_combinations (E), C90_repulsive (E), C90_order (E), C90_between_local_potentials (E), C90_spin_orbit_vanishes (E) |
| C91 A function at the centre of a pseudopotential feels only the potentials of the angular momenta it contains | C91_only_contained_channels_matter (E), C91_vanishes (E) |
| C92 The gradient of the overlap is the momentum matrix | C92_overlap_gradient_is_momentum (E) |
| C93 Kinetic energy and momentum integrals are accurate in double precision | C93_kinetic_double_precision (E), C93_momentum_double_precision (E), C93_kinetic_energy_of_s (E) |
| C94 The Boys function is accurate in double precision | C94_double_precision (E), C94_values (E) |
| C95 The value of a potential is accurate in double precision | C95_double_precision (E) |
| C96 Normalising coefficients touches nothing else, and type-2 integrals never change their inputs | C96_normcoef (E), C96_same_function (E), C96_twice (E), C96_working_copy (E), C96_inputs (E) |
| C97 The screening of type-2 radial integrals searches for the maximum of the integrand | C97_uphill (E), C97_estimate (D), C97_one_centre (E) |
| C98 One-electron matrices stay symmetric in double precision | C98_overlap (E), C98_kinetic (E), C98_momentum (E) |
| C99 Normalised coefficients are accurate in double precision | C99_double_precision (E) |

## 7. Status

80 proved, 19 partial.  What is partial or refuted:

* C10: false of the code; refuted with a witness
* C11: false of the code; refuted with a witness
* C15: false of the code: the type-2 tables ignore the tolerance; refuted with a witness
* C16: proved for L <= 9; refuted at the documented maximum L = 10
* C26: safe only for s-type bra shells; refuted for every bra shell with L > 0
* C27: proved when no bra shell is shared; refuted for a shared bra shell
* C31: false of the code: matrices of the lowered shell are read outside their bounds whenever a shell with L > 0 is differentiated; refuted with a witness, exact condition proved
* C34: proved for L_A + L <= 14; refuted for every documented pair with L_A + L >= 15
* C48: general routine and point-charge routine proved; the other convenience routines pass shifted parameters: what they compute is proved, the claim itself is refuted
* C50: proved for powers 2L+n <= 31; for larger even powers the process is stopped by an assertion (proved)
* C51: false of the code: safe exactly for L <= 19; refuted with a witness
* C56: proved when a primitive pair is not screened out; refuted otherwise (zero matrix returned)
* C63: false of the code: aborts for L_A+L_B >= 16 and Boys arguments above 30, overruns a table at L = 10; refuted with a witness
* C68: proved for L_A+L_B <= 14 and pairs whose direction is resolved by the code (vector zero or longer than 1e-14/2); false for L_A+L_B >= 15, where an assertion fails, refuted with a witness
* C72: false of the code: the error of S_7 just below 0 exceeds 2e-11 (refuted with a witness); the bound that does hold is C69
* C75: false of the code: the entry for order 2 at x = 0.28 has a relative error above 1e-12 (refuted with a witness); the absolute bound that does hold is C74
* C77: false of the code: two tight s functions at one point give a value accepted after two grids and wrong by more than 1/8, for every tolerance (refuted with a witness); the convergence that does hold is C76
* C85: false when two threads use one operator at different centres (refuted with a concrete schedule); proved for threads which share outercore shells at one centre only
* C86: the outercore integrals and the entry points for scalars agree; the outercore gradient of the module has an empty body (refuted)
