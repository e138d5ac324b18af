# Formal model of opengv in Rocq (Coq 8.16.1)

## 1. Layers

| Layer | Code | Number system | Files |
|---|---|---|---|
| A | sample consensus core (`include/opengv/sac/**`), multi-camera index handling | `Z`/`nat` integers with explicit UB outcomes; scores and thresholds are IEEE binary64 (`PrimFloat`); libm `log`,`pow` are arbitrary functions; the random generator is an arbitrary stream; solvers and scores are arbitrary stateful functions | `Sac*.v`, `Multi*.v` |
| B | mathematics (`src/math`), triangulation, point cloud, closed-form parts of the pose solvers | exact reals (`R`), 3-vectors and 3x3 matrices as records | `Lin*.v`, `Math*.v`, ... |
| C | `src/sac_problems`, adapters | lists + layer B | `Prob*.v`, `Adapter*.v` |

Each area has a `*Model.v` file (definitions only, each citing file and lines), a
`*Spec.v` file where an independent specification is needed, a `*Proofs.v` file, and a
`*Props.v` file with only the property theorems, `Print Assumptions` and non-vacuity `Example`s.

## 2. Conventions

* Undefined behaviour of the C++ (out-of-bounds access, integer division by zero, signed
  overflow) is a distinct outcome (`None` / `UB`), never a default value.
* Third-party numerics (Eigen SVD / EigenSolver / LM optimiser, libm) are universally
  quantified arguments; what is assumed of them is an explicit hypothesis of the theorem.
* A property that the code violates is proved as `..._refuted` with a concrete witness, and the
  part that does hold is proved beside it.
* Layer B idealises `double` to exact reals. Statements about rounding are out of scope there.

## 3. Plan per property

C01-C02 `drawIndexSample`/`getSamples` as a fold over the pool with an arbitrary random stream; invariant `Permutation pool indices`; induction over draws and over histories.
C03-C08, C11 `Ransac::computeModel` as a fuelled loop over an arbitrary problem interface; measure argument shows the fuel is never exhausted; loop invariant relates the saved model to a ghost trace of evaluated hypotheses. C07/C08 refuted with concrete problems.
C09 real analysis of the k formula (`ln`, `Rpower`).
C10 relational: streams agreeing on a prefix.
C12-C13 `Lmeds::computeModel` likewise; `std::sort` is an arbitrary function meeting its contract.
C14-C15 `MultiRansac` likewise, and a step-by-step simulation for one camera.
C16 prefix-sum index tables, induction over cameras.
C17-C18 round-robin loops; invariants over steps; the rand()==RAND_MAX case refuted.
C19, C22 refuted on the model of the scoring functions; positive theorem for uniform selections.
C20 argmin fold over candidate lists.
C21, C52-C54 real vector geometry (Cauchy-Schwarz, rotations as isometries).
C23 list induction.
C24-C27 polynomial identities (`ring`/`field`/`nsatz`) on 3x3 matrices.
C28-C30, C40 SVD as hypothesis; orthogonality + determinant algebra; optimality by trace bound for products of orthogonal matrices.
C31 row operations preserve the annihilated vectors, induction over the elimination loops.
C32-C35 polynomials over R; Sturm's theorem proved in Coq from the standard reals; bracket invariants.
C36 cubic/quartic identities.
C37-C39, C41 linear algebra identities, Cramer.
C42-C43 pose-solver algebra.
C44-C47 sums over lists of correspondences, `ring` after linearity; derivatives by `derivable_pt_lim`.
C48-C49 matrix identities, SVD as hypothesis.
C50-C51 the generated `composeA` functions translated mechanically by `tools/gen_five.py`; each of the 20 rows is proved equal to a constraint by `ring`/`field` in 39 variables; the eigenvector and determinant arguments are linear algebra; exact instances with certificates (`tools/gen_fiveex.py`) show the hypotheses are met.
C75 UPnP's eliminations: a boolean checker shows that each row of the generated templates is a complete shifted copy of a row of the coefficient matrix, so the monomials of a stationary point annihilate the template; `math::gauss_jordan` keeps the solutions (C31). Concrete scenes: elimination modulo a small prime certifies that the rational elimination succeeds, an integer kernel vector shows the dropped column is not zero.
C76 seventeenpt: the pseudo-inverse satisfies A A+ A = A, so the true essential vector is in the kernel of the reduced system and the last right singular vector is a multiple of it; C48 gives the rotation; the translation system is solved exactly. Concrete seventeen correspondences with singular value bounds.

C77 sixpt: fillRow2 is the determinant of a 3x3 matrix of quadratic polynomials (checked term by term); the polynomials of fillRow1 are triple products of the rotated rays, and if all rays meet the third column depends linearly on the first two; every row of the template is a monomial times a row of M1 (checked on the generated table), so the solved system gives the multiples by the third Cayley parameter. One camera: every motion with t = c1 - R c2 is a solution, so all coefficients are zero (Kronecker substitution). Concrete six correspondences with exact M1 and elimination certificates modulo 29.
C78 fivept_kneip: each coefficient row evaluated at the monomials of a matrix is a determinant (ring); every statement group of the 3071 is checked to subtract a multiple of a row shifted by a monomial, by a computed check over the supports of all rows; the inline reductions that drop entries (they rely on the ten rows having linearly dependent coefficients) are followed with linear forms in the 64 independent coefficients. So every row stays a polynomial that vanishes at the true rotation, which gives the eigenvector. Acceptance tests: unfolding. Concrete scene run modulo 8191 with machine integers (the axioms of Uint63 are used in that example only).
C79 EigensolverSacProblem: the start value as a function of three calls of rand() and RAND_MAX; Cayley round trip (C25), the eigensolver (C44) and the scores (C53) are composed. The minimisation is an argument.

C80 gp3p elimination (partial): the template (C57) is cut into its rows (GbSeg, Gp3pRows, generated by tools/gen_gp3p_rows.py). The support check used for the other templates fails on it, because the generated code leaves out pairs of terms that cancel and entries that vanish identically. Gp3pTie proves a closed form of every row in terms of the earlier ones, Gp3pLow the 40 cancellations of rows 9 to 20, Gp3pElim the theorem for rows 0 to 29. Missing: rows 30 to 47. Numerically their dropped terms are zero as well (the coefficient of c1^3 in rows 30 to 35); a proof would need that multiplication modulo the three quadrics is commutative.
C81-C82 Python bindings: `PyModel.v` models numpy arrays as shape and buffer with pybind11's checked offsets (an index error is an exception, a read outside the buffer is undefined behaviour), the adapters, array conversions and wrappers; `PySpec.v` says what a[i, j] is. The wrapper theorems compose the layout lemmas with the exactness theorems of the solvers (C37-C41) and with the sample-consensus theorems (C04, C06, C07, C11). In-bounds: offset below the product of the shape, by induction over the shape.
C83 EPnP error measures: `EpnpQuatModel.v`; that 4 n4 is the squared length of the unscaled quaternion and 4 n4 times the transpose its matrix is linear in the orthogonality and cofactor equations of the rotation; errors through trace(A^T B) = 4 (q.p)^2 - 1.
C84 Matlab entry point: `MexModel.v` models the tables, findCase, the argument checks, the adapter and prior set-up and the 38 cases of mexFunction, with the library functions as arguments; `MexSpec.v` writes the documented interface as one row per method and call forms as Matlab values. Lookup by induction over the table, dispatch by computing the row of each name, the converse by inverting the checks.
C85 Python multi-point solvers: `Py2Model.v` models the wrappers of fivept_nister, sevenpt, eightpt, sixpt, epnp and gpnp on the central adapters of the bindings; a failed assertion is [PyUB]. Each exactness theorem composes the reading lemma with the theorem of the solver. gpnp: the result for zero offsets (C63) mentions points only. sixpt: all equations vanish for one camera per view (C77), hence all later matrices are the same for all arguments.
C86 Python refinements and fivept_kneip: `Py3Model.v` models the two optimize_nonlinear wrappers (adapters with the pose passed in, rows read from six correspondences on, Eigen's early return below that) and the wrapper of fivept_kneip. `Py3Props.v` composes the reading lemmas with C72 and C73, with errors stated on the rows of the arrays; `Py3Kneip.v` with C78.
C87 Python eigensolver: `Py4Model.v` models the wrapper; `Py4Props.v` composes the reading lemma with C44 (composeM is the sum over the epipolar plane normals, its kernel the translations that explain all rows).
C88 Python UPnP: `Py5Model.v` models the wrapper on the central adapter; `Py5Props.v` composes the reading lemma with the theorems about UPnP's candidates, polishing and output (C55) and the complete solver (C75).
C89 Python GP3P: `Py6Model.v` models the wrapper (three rows, central adapter); `Py6Props.v` composes the reading lemma with C57. The twin solution is the half turn about the normal of the plane of the points, composed with the pose.
C55 UPnP: the accumulated quadratic forms are sums over the correspondences; `ring` after linearity.
C56, C61-C63 GPnP: linear system by sums, SVD as hypothesis; the five generated elimination templates are parsed by `tools/gbparse.py` into a small instruction language (`GbModel.v`); a boolean checker, proved sound once, shows that every row stays in the ideal, so the theorems hold for all coefficient values.
C57 GP3P: the generated coefficient matrix (`tools/gen_gp3p.py`) is the pose equation, row by row by `ring`; back-substitution and candidate test over arbitrary complex eigenvectors.
C58 bijection between draw sequences and ordered samples, induction.
C59-C60 generalized eigensolver: quartic root formulas for the cost; the descent as a binary64 loop with a termination measure.
C64-C65 `Epnp::qr_solve` with arbitrary dimensions: orthogonal reflections preserve Gram matrices, induction over columns; the static work arrays as shared memory of interleaved calls.
C66-C71 EPnP: barycentric weights, linear system, distance constraints, recovery, planar scenes, candidate choice, starting coefficients.
C72-C74 nonlinear refinement: the minimiser is an arbitrary finite strategy that asks the cost functor for residuals; induction over strategies and over correspondences.

## 4. Trusted base

**Checker.** Coq 8.16.1's kernel (including its `vm_compute` conversion and its primitive 63-bit integers and floats). No plugin, no kernel flag.

**Axioms.** The table below is generated by `tools/assum.py` from the `Print Assumptions` commands of `theories/Assumptions.v`, one per theorem in `MANIFEST.json`. All entries are axioms, or primitive types and operations, of the Coq standard library; no other library contributes an axiom.

**Idealisation.** Layer B replaces `double` by exact reals; `None` (or a NaN/Inf constructor) stands for the non-finite values the code would produce by dividing by zero. Rounding, overflow and convergence thresholds of Eigen are not modelled. Layer A uses IEEE binary64.

**External code** enters as universally quantified arguments whose specification is a visible hypothesis: Eigen `JacobiSVD`, `EigenSolver`, `ComplexEigenSolver`, `FullPivLU`/`inverse`, Levenberg-Marquardt, `std::sort`, `rand`, libm `log`/`pow`. Each specification is shown satisfiable (`GenSpectral.v`, `Spectral.v`, `CEig.v`).

**Translation.** The Gallina functions were written from the text of /repo, or generated from it by the scripts in `tools/` (`gen_five.py`, `gen_gb.py`, `gen_eig.py`, ...). That they say what the C++ says is by inspection: every definition cites file and lines.

**Modelled code.**

| /repo | theories |
|---|---|
| include/opengv/sac/** (Ransac, Lmeds, MultiRansac, problems, samplers) | SacModel, MultiModel |
| src/sac_problems/** (model generation, scoring, sample sizes, index conversion) | GeoModel, MultiModel |
| src/*/…Adapter.cpp, MA…cpp (index tables, forwarding, multi-camera) | AdapterModel |
| src/math/{arun,cayley,quaternion,gauss_jordan,roots,Sturm}.cpp | ArunModel, RotModel, GaussModel, RootsModel, SturmModel |
| src/triangulation/methods.cpp | TriModel |
| src/point_cloud/methods.cpp (threept_arun) | ArunModel |
| src/relative_pose/methods.cpp: rotation/translation-only, sevenpt, eightpt, fivept_stewenius, fivept_nister, eigensolver, ge, seventeenpt, sixpt, fivept_kneip | ArunModel, EpiModel, SeventeenModel, SixptModel, SixptGen, KneipOps, KneipData, KneipModel, FiveptModel, EigModel, EigJacModel, GeModel, DescentModel |
| src/absolute_pose/methods.cpp: p2p, p3p (Kneip, Gao), gp3p, gpnp, upnp (with the generated eliminations upnp2.cpp, upnp4.cpp), epnp | P3pModel, GaoModel, Gp3pModel, GpnpModel, UpnpModel, MacModel, UpnpGen, UpnpActModel, EpnpModel |
| src/absolute_pose/modules/Epnp.cpp | EpnpModel, QrModel, EpnpQuatModel |
| matlab/opengv.cpp | MexModel (specification in MexSpec) |
| optimize_nonlinear (absolute, relative, point cloud), optimizeModelCoefficients of the sac problems (EigensolverSacProblem in EigSacModel) | NlModel, EigSacModel |
| python/pyopengv.cpp: array conversions, adapters and wrappers | PyModel, Py2Model, Py3Model, Py4Model, Py5Model, Py6Model |

**Not modelled.** `Epnp::print_pose` and other console output, the mex library beyond sizes, classes and data of arrays, matlab/opengv_donotuse.cpp and opengv_experimental1/2.cpp, pybind11 itself, tests and benchmarks, time stamps and console output.

### Axioms per theorem

* no axioms: C14_cameras_draw_independently, C16_multi_to_serial_and_back, C16_serial_to_multi_and_back, C16_serial_range, C16_serial_access, C16_serial_camera_attributes, C16_number_of_correspondences, C16_convert_lists, C17_sizes_even, C17_rand_max_refuted, C17_no_camera_refuted, C18_round_robin, C18_six_indices, C18_bad_start_refuted, C23_all_is_explicit_list, C23_sublist_is_restriction, C23_array_central_absolute, C23_array_noncentral_absolute, C23_array_central_relative, C23_array_noncentral_relative, C23_array_multi, C23_short_points_refuted, C58_sampling_is_unbiased, C67_all_pairs, C81_round_trip, C82_known_names
* `PrimFloat.float`: C01_pool_never_damaged, C01_samples_without_replacement, C01_samples_distinct, C02_getSamples_outcomes, C10_request_consumes_bounded_randomness, C14_samples_per_camera
* `PrimFloat.float`, `PrimFloat.ltb`: C05_select_is_strictly_below, C05_count_is_number_selected
* `ClassicalDedekindReals.sig_forall_dec`, `FunctionalExtensionality.functional_extensionality_dep`: C20_selection_is_first_minimum, C24_cayley2rot_is_rotation, C24_reduced_is_scaled, C24_cayley_transform, C26_unit_quaternion_gives_rotation, C26_rotates_like_conjugation, C26_composition, C26_antipodal_same, C26_two_to_one, C26_non_unit_is_no_rotation, C28_arun_is_rotation, C31_solution_set, C31_reduced_form, C31_singular_iff, C31_exact, C31_undefined, C31_tiny_refuted, C32_chain_rows, C32_incomplete_chain_refuted, C33_newton_fixes_roots, C36_quartic_w, C36_quartic, C36_quartic_real, C37_failure_iff_parallel, C37_exact, C38_exact, C40_always_a_rotation, C44_composeM_is_normal_sum, C44_symmetric_psd, C44_kernel, C44_true_translation, C46_composeM_jacobian, C47_composeG_is_constraint_sum, C47_psd, C47_kernel, C47_true_pose, C47_same_matrix, C47_jacobian, C49_eightpt_rank, C49_sevenpt_loses_solution_refuted, C50_equations, C50_eigenvector, C50_epipolar, C50_orthogonal_refuted, C51_equations, C51_polynomials, C51_rows, C51_root, C51_annihilates, C52_absolute_body_conversion, C52_absolute_body_conversion_inverse, C52_direct_motion, C52_relative_body_conversion, C55_value_is_error, C55_translation_optimal, C55_true_pose, C55_gradient_and_hessian, C56_centroid, C56_weights, C56_linear_system, C57_equations, C57_output, C57_real_accepted, C57_positive_rejected, C57_conjugate_refuted, C66_weights, C66_linear_system, C66_true_pose_solves, C66_normal_matrix, C67_distances, C67_derivative, C70_best, C70_first_nan, C71_columns, C75_eigenvector, C75_true_pose, C75_plain_residual, C75_plain_eigenvector, C75_four_points_refuted, C77_equations, C77_eigenvector, C77_recovers, C77_candidates, C77_single_camera, C78_rows, C78_eigenvector, C80_depths_eliminated_partial, C81_triangulate2_exact, C81_triangulate_exact, C81_triangulate_in_bounds, C81_no_rows_refuted, C81_short_second_array_raises, C82_twopt_misses_turned_camera, C84_index_rounding, C85_eightpt_singular, C85_sixpt_blind_refuted, C85_sixpt_singular_refuted, C89_mirror, C89_output, C89_first_three, C89_few_rows
* `ClassicalDedekindReals.sig_forall_dec`, `ClassicalDedekindReals.sig_not_dec`, `FunctionalExtensionality.functional_extensionality_dep`: C19_prefix_selection, C20_central_relative, C20_quality_is_total_score, C21_multi_absolute_scores, C22_one_pose_per_pair_refuted, C22_scoring_needs_one_pose_per_pair, C25_rot_of_cayley_and_back, C25_cayley_of_rot_and_back, C25_half_turn_is_singular, C27_round_trip, C27_round_trip_rotation, C27_vanishing_component_refuted, C27_identity_refuted, svd_exists, C29_arun_maximises_trace, C29_arun_is_optimal, C29_rigid_alignment_is_optimal, C30_exact_alignment, C30_recovers_the_motion, C37_midpoint_of_shortest_segment, C38_orthogonal_bearing_refuted, C39_failure_iff_same_plane, C39_exact, C40_rotationOnly_exact, C40_twopt_rotationOnly_exact, C41_exact, C41_never_nan, C42_number, C42_first_two_points, C42_third_point, C42_true_pose, C42_right_angle_refuted, C43_real_roots, C43_true_pose, C43_three_cases_refuted, C43_symmetric_refuted, C43_wrong_constant_refuted, C44_output, C44_recovers_pose, C48_candidates_are_rotations, C48_true_motion_is_candidate, C49_eightpt_optimal, C49_sevenpt_constraints, C49_sevenpt_singular, C49_sevenpt_complete, C51_recovers, C51_recovers_motion, C51_epipolar, C51_shared_root_refuted, C53_independent_of_adapter_pose, C54_eigensolver_restores_prior, C54_prior_preserved_refuted, C54_translation_only_hypotheses_stable, C55_defined, C55_candidates_sym, C55_candidates, C55_antipodal_refuted, C55_polish, C55_output, C55_chirality, C55_recovers_pose, C55_zero_component_refuted, C56_best_candidate, C56_recovers_pose, C56_null_space, C57_true_pose, C61_one_vector, C61_two_vectors, C61_three_vectors, C61_four_vectors, C61_five_vectors, C61_five_vectors_refuted, C62_only_first_point, C62_coincident_points_refuted, C63_central_camera, C63_central_camera_refuted, C64_least_squares, C64_singular_detected, C64_independent_of_history, C64_full_rank_refuted, C65_serial, C69_control_points, C69_coplanar, C69_coplanar_refuted, C70_rotation, C70_sideways, C70_sideways_refuted, C71_first, C71_second, C71_third, C71_step, C71_negated_refuted, C72_same_as_inlier_test, C72_rotation, C72_start, C72_never_worse, C72_half_turn_refuted, C72_model, C72_prior_preserved_refuted, C73_same_as_inlier_test, C73_run, C73_rotation, C73_start, C73_never_worse, C73_half_turn, C73_prior_preserved_refuted, C73_model, C74_cost, C74_rotation, C74_never_worse, C74_closed_form_is_optimal, C74_half_turn, C74_model, C74_rotation_model, C75_recovers, C75_plain_candidates, C76_rotation, C76_central_translation_zero, C78_accepts, C78_recovers, C79_start, C79_start_reaches, C79_half_turn_prior, C79_optimize, C79_outputs, C81_p2p_exact, C81_twopt_exact, C81_rotation_only_exact, C81_twopt_rotation_only_exact, C81_p3p_lists, C81_reads_in_bounds, C81_empty_tail_refuted, C83_quaternion_of_rotation, C83_quaternion_always_defined, C83_rotation_error, C83_rotation_error_zero_iff_equal, C83_rotation_error_symmetric, C83_translation_error, C85_sevenpt_complete, C85_sevenpt_constraints, C85_nister_complete, C85_nister_list, C85_epnp_rotation_or_nan, C85_epnp_planar_refuted, C85_gpnp_blind_refuted, C85_row_counts, C85_short_second_array_raises, C86_refines, C86_fewer_than_six, C86_rotation_or_nan, C86_abs_never_worse, C86_rel_never_worse, C86_half_turn_refuted, C86_swapped_pose_raises, C86_short_second_array_raises, C86_kneip_recovers, C86_kneip_accepts, C86_kneip_first_five, C87_minimises, C87_keeps_exact, C87_rows, C88_complete, C88_recovers, C88_zero_component_refuted, C88_output, C88_rows, C88_parallel_rays, C89_recovers
* `ClassicalDedekindReals.sig_forall_dec`, `Classical_Prop.classic`, `FunctionalExtensionality.functional_extensionality_dep`: C49_eightpt_exact, C68_null_vector, C85_eightpt_exact
* `ClassicalDedekindReals.sig_forall_dec`, `ClassicalDedekindReals.sig_not_dec`, `Classical_Prop.classic`, `FunctionalExtensionality.functional_extensionality_dep`: C09_confidence, C09_k_positive, C09_k_never_increases, C09_k_tight, C09_tiny_ratio_refuted, C19_selected_score_refuted, C20_absolute, C20_absolute_true_pose, C21_range_and_zero, C21_noise_free, C32_sturm_count, C32_sturm_count_ends, C33_bracketing_complete, C33_bracketing_complete_default, C33_find_roots_number, C33_root_on_bound_refuted, C34_bound, C34_bound_defined, C34_degree_one_refuted, C35_results, C35_terminates_if_newton_does, C35_termination_refuted, C36_cubic, C36_cubic_real, C36_cubic_refuted, C36_quartic_refuted, C39_epipolar, C40_same_direction_refuted, C41_exact_for_all_points_refuted, C42_mirror_refuted, C43_behind_camera_refuted, C45_smallest_eigenvalue, C45_scalar_matrix_refuted, C46_smallestEV_jacobian, C47_output, C47_recovers_pose, C50_recovers, C50_recovers_motion, C53_range, C53_zero_iff_rays_meet, C59_two_smallest_eigenvalues, C59_cost, C59_triple_refuted, C59_pure_rotation_refuted, C64_full_rank_zero_last_row, C65_overlap_refuted, C68_recovers_pose, C70_zero_error, C72_residual, C72_keeps_exact, C73_residual, C73_keeps_exact, C76_recovers, C76_recovers_linear, C76_least_squares, C79_recovers, C84_method_lookup, C84_dispatch, C84_output_only_if_well_formed, C84_no_undefined_behaviour, C84_inliers_as_indices, C84_indices_in_range_refuted, C84_method_is_string_refuted, C85_epnp_exact, C86_abs_keeps_exact, C86_rel_keeps_exact
* `ClassicalDedekindReals.sig_forall_dec`, `ClassicalUniqueChoice.dependent_unique_choice`, `Classical_Prop.classic`, `FunctionalExtensionality.functional_extensionality_dep`, `RelationalChoice.relational_choice`: ceig_function_exists
* `PrimFloat.add`, `PrimFloat.div`, `PrimFloat.eqb`, `PrimFloat.float`, `PrimFloat.leb`, `PrimFloat.ltb`, `PrimFloat.mul`: C13_stale_inliers_refuted
* `PrimFloat.div`, `PrimFloat.float`, `PrimFloat.ltb`, `PrimFloat.of_uint63`, `PrimFloat.opp`, `PrimFloat.sub`, `PrimInt63.int`, `PrimInt63.lor`, `PrimInt63.lsl`, `PrimInt63.sub`: C03_ransac_terminates, C03_ransac_budget, C04_ransac_returns_best, C05_ransac_inliers_of_model, C06_success_iff_hypothesis_evaluated, C07_own_hypothesis_or_unchanged, C08_zero_iterations_evaluates_nothing, C09_stops_only_for_a_reason, C10_run_depends_on_consumed_randomness, C11_no_overflow_in_usable_range, C14_terminates, C14_no_undefined_behaviour, C14_returns_best, C14_inliers_per_camera, C14_success_iff_hypothesis_evaluated, C15_one_camera_is_ransac
* `ClassicalDedekindReals.sig_forall_dec`, `PrimFloat.div`, `PrimFloat.float`, `PrimFloat.ltb`, `PrimFloat.of_uint63`, `PrimFloat.opp`, `PrimFloat.sub`, `PrimInt63.int`, `PrimInt63.lor`, `PrimInt63.lsl`, `PrimInt63.sub`: C82_returns_best_or_uninitialised, C82_defined_up_to
* `PrimFloat.div`, `PrimFloat.eqb`, `PrimFloat.float`, `PrimFloat.ltb`, `PrimFloat.mul`, `PrimFloat.of_uint63`, `PrimFloat.opp`, `PrimFloat.sub`, `PrimInt63.int`, `PrimInt63.lor`, `PrimInt63.lsl`, `PrimInt63.sub`: C07_reuse_refuted, C08_max_iterations_refuted
* `FloatAxioms.eqb_spec`, `FloatAxioms.ltb_spec`, `PrimFloat.abs`, `PrimFloat.div`, `PrimFloat.eqb`, `PrimFloat.float`, `PrimFloat.frshiftexp`, `PrimFloat.ltb`, `PrimFloat.normfr_mantissa`, `PrimInt63.eqb`, `PrimInt63.int`, `PrimInt63.land`, `PrimInt63.lsr`: C05_nan_never_inlier
* `ClassicalDedekindReals.sig_forall_dec`, `ClassicalDedekindReals.sig_not_dec`, `FunctionalExtensionality.functional_extensionality_dep`, `PrimFloat.div`, `PrimFloat.float`, `PrimFloat.ltb`, `PrimFloat.of_uint63`, `PrimFloat.opp`, `PrimFloat.sub`, `PrimInt63.int`, `PrimInt63.lor`, `PrimInt63.lsl`, `PrimInt63.sub`: C82_twopt_orientation_refuted
* `PrimFloat.add`, `PrimFloat.div`, `PrimFloat.eqb`, `PrimFloat.float`, `PrimFloat.leb`, `PrimFloat.ltb`, `PrimFloat.mul`, `PrimFloat.of_uint63`, `PrimFloat.opp`, `PrimFloat.sub`, `PrimInt63.int`, `PrimInt63.lor`, `PrimInt63.lsl`, `PrimInt63.sub`: C13_boundary_differs_refuted
* `FloatAxioms.eqb_spec`, `FloatAxioms.leb_spec`, `FloatAxioms.ltb_spec`, `PrimFloat.abs`, `PrimFloat.div`, `PrimFloat.eqb`, `PrimFloat.float`, `PrimFloat.frshiftexp`, `PrimFloat.leb`, `PrimFloat.ltb`, `PrimFloat.normfr_mantissa`, `PrimInt63.eqb`, `PrimInt63.int`, `PrimInt63.land`, `PrimInt63.lsr`: C13_agree_unless_equal
* `ClassicalDedekindReals.sig_forall_dec`, `PrimFloat.add`, `PrimFloat.div`, `PrimFloat.eqb`, `PrimFloat.float`, `PrimFloat.leb`, `PrimFloat.ltb`, `PrimFloat.mul`, `PrimFloat.of_uint63`, `PrimFloat.opp`, `PrimFloat.sub`, `PrimInt63.int`, `PrimInt63.lor`, `PrimInt63.lsl`, `PrimInt63.sub`: C82_failure_reported_refuted, C82_unknown_name_refuted
* `FloatAxioms.eqb_spec`, `FloatAxioms.leb_spec`, `FloatAxioms.ltb_spec`, `PrimFloat.abs`, `PrimFloat.add`, `PrimFloat.div`, `PrimFloat.eqb`, `PrimFloat.float`, `PrimFloat.frshiftexp`, `PrimFloat.leb`, `PrimFloat.ltb`, `PrimFloat.mul`, `PrimFloat.normfr_mantissa`, `PrimInt63.eqb`, `PrimInt63.int`, `PrimInt63.land`, `PrimInt63.lsr`: C12_lmeds_least_median, C12_lmeds_terminates_in_budget, C13_lmeds_inliers_at_most_threshold, C13_failure_keeps_inliers
* `ClassicalDedekindReals.sig_forall_dec`, `FloatAxioms.eqb_spec`, `FloatAxioms.leb_spec`, `FloatAxioms.ltb_spec`, `PrimFloat.abs`, `PrimFloat.add`, `PrimFloat.div`, `PrimFloat.eqb`, `PrimFloat.float`, `PrimFloat.frshiftexp`, `PrimFloat.leb`, `PrimFloat.ltb`, `PrimFloat.mul`, `PrimFloat.normfr_mantissa`, `PrimInt63.eqb`, `PrimInt63.int`, `PrimInt63.land`, `PrimInt63.lsr`: C82_lmeds_returns_least_median_or_uninitialised
* `FloatAxioms.eqb_spec`, `FloatAxioms.leb_spec`, `FloatAxioms.ltb_spec`, `FloatAxioms.mul_spec`, `FloatAxioms.sub_spec`, `PrimFloat.abs`, `PrimFloat.add`, `PrimFloat.div`, `PrimFloat.eqb`, `PrimFloat.float`, `PrimFloat.frshiftexp`, `PrimFloat.leb`, `PrimFloat.ltb`, `PrimFloat.mul`, `PrimFloat.normfr_mantissa`, `PrimFloat.sqrt`, `PrimFloat.sub`, `PrimInt63.eqb`, `PrimInt63.int`, `PrimInt63.land`, `PrimInt63.lsr`: C60_descent_ends, C60_first_trial_improves
* `FloatAxioms.SF2Prim_Prim2SF`, `FloatAxioms.add_spec`, `FloatAxioms.eqb_spec`, `FloatAxioms.leb_spec`, `FloatAxioms.ltb_spec`, `FloatAxioms.mul_spec`, `FloatAxioms.sqrt_spec`, `FloatAxioms.sub_spec`, `PrimFloat.abs`, `PrimFloat.add`, `PrimFloat.div`, `PrimFloat.eqb`, `PrimFloat.float`, `PrimFloat.frshiftexp`, `PrimFloat.ldshiftexp`, `PrimFloat.leb`, `PrimFloat.ltb`, `PrimFloat.mul`, `PrimFloat.normfr_mantissa`, `PrimFloat.of_uint63`, `PrimFloat.opp`, `PrimFloat.sqrt`, `PrimFloat.sub`, `PrimInt63.eqb`, `PrimInt63.int`, `PrimInt63.land`, `PrimInt63.lor`, `PrimInt63.lsl`, `PrimInt63.lsr`, `PrimInt63.sub`: C60_flat_refuted
