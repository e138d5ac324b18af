#!/usr/bin/env python3
"""Single source of MANIFEST.json and rocq/theories/Assumptions.v."""
import json, os, re
ROOT = os.path.join(os.path.dirname(os.path.abspath(__file__)), '..')
C = {}
def c(prop, status, note, *thms):
    C[prop] = dict(property=prop, status=status, theorems=list(thms), note=note)

c('C01', 'proved', 'all histories of public operations, all random streams',
  'C01_pool_never_damaged', 'C01_samples_without_replacement', 'C01_samples_distinct')
c('C02', 'proved', 'three outcomes, first good sample among the allowed draws',
  'C02_getSamples_outcomes')
c('C03', 'proved', 'termination and budgets for arbitrary solvers, scores, log/pow',
  'C03_ransac_terminates', 'C03_ransac_budget')
c('C04', 'proved', '', 'C04_ransac_returns_best')
c('C05', 'proved', '', 'C05_select_is_strictly_below', 'C05_count_is_number_selected',
  'C05_nan_never_inlier', 'C05_ransac_inliers_of_model')
c('C06', 'proved', '', 'C06_success_iff_hypothesis_evaluated')
c('C07', 'proved', 'the naive claim is refuted with a witness; the guarantee that does hold is C07_own_hypothesis_or_unchanged',
  'C07_reuse_refuted', 'C07_own_hypothesis_or_unchanged')
c('C08', 'proved', 'documented bound refuted by one; tight bound is C03_ransac_budget',
  'C08_max_iterations_refuted', 'C08_zero_iterations_evaluates_nothing', 'C03_ransac_budget')
c('C09', 'proved', 'reals for the formula; binary64 loop for the stopping reason; confidence fails below the clamp (refuted)',
  'C09_stops_only_for_a_reason','C09_confidence','C09_k_positive','C09_k_never_increases','C09_k_tight','C09_tiny_ratio_refuted')
c('C10', 'proved', '', 'C10_run_depends_on_consumed_randomness', 'C10_request_consumes_bounded_randomness')
c('C11', 'proved', '', 'C11_no_overflow_in_usable_range')
c('C12', 'proved', 'std::sort is any function meeting its contract',
  'C12_lmeds_least_median', 'C12_lmeds_terminates_in_budget')
c('C13', 'proved', 'boundary difference and stale inliers refuted with witnesses',
  'C13_lmeds_inliers_at_most_threshold', 'C13_agree_unless_equal', 'C13_boundary_differs_refuted',
  'C13_failure_keeps_inliers', 'C13_stale_inliers_refuted')
c('C58', 'proved', '', 'C58_sampling_is_unbiased')
c('C14','proved','','C14_samples_per_camera','C14_cameras_draw_independently','C14_terminates','C14_no_undefined_behaviour','C14_returns_best','C14_inliers_per_camera','C14_success_iff_hypothesis_evaluated')
c('C15','proved','step-by-step simulation; needs a positive sample size','C15_one_camera_is_ransac')
c('C17','proved','holds whenever rand() is below RAND_MAX; out-of-bounds write otherwise (refuted)','C17_sizes_even','C17_rand_max_refuted','C17_no_camera_refuted')
c('C18','proved','exact visiting order, permutation, six indices; bad start camera refuted','C18_round_robin','C18_six_indices','C18_bad_start_refuted')
c('C16','proved','','C16_multi_to_serial_and_back','C16_serial_to_multi_and_back','C16_serial_range','C16_serial_access','C16_serial_camera_attributes','C16_number_of_correspondences','C16_convert_lists')
c('C23','proved','getPoint with fewer points than bearing vectors passes the assert and reads out of range (refuted)','C23_all_is_explicit_list','C23_sublist_is_restriction','C23_array_central_absolute','C23_array_noncentral_absolute','C23_array_central_relative','C23_array_noncentral_relative','C23_array_multi','C23_short_points_refuted')
c('C24','proved','','C24_cayley2rot_is_rotation','C24_reduced_is_scaled','C24_cayley_transform')
c('C25','proved','','C25_rot_of_cayley_and_back','C25_cayley_of_rot_and_back','C25_half_turn_is_singular')
c('C26','proved','','C26_unit_quaternion_gives_rotation','C26_rotates_like_conjugation','C26_composition','C26_antipodal_same','C26_two_to_one','C26_non_unit_is_no_rotation')
c('C27','proved','exact domain of the round trip; refuted wherever a quaternion component vanishes','C27_round_trip','C27_round_trip_rotation','C27_vanishing_component_refuted','C27_identity_refuted')
c('C28','proved','existence of the decomposition itself: Spectral.svd_exists','C28_arun_is_rotation','svd_exists')
c('C29','proved','','C29_arun_maximises_trace','C29_arun_is_optimal','C29_rigid_alignment_is_optimal')
c('C30','proved','','C30_exact_alignment','C30_recovers_the_motion')
c('C40','proved','not determined by a single direction (refuted)','C40_always_a_rotation','C40_rotationOnly_exact','C40_twopt_rotationOnly_exact','C40_same_direction_refuted')
c('C19','proved','right for initial selections, witness of a wrong score otherwise','C19_prefix_selection','C19_selected_score_refuted')
c('C20','proved','all solvers: the candidate list is arbitrary','C20_selection_is_first_minimum','C20_absolute','C20_absolute_true_pose','C20_central_relative','C20_quality_is_total_score')
c('C21','proved','','C21_range_and_zero','C21_noise_free','C21_multi_absolute_scores')
c('C22','proved','','C22_one_pose_per_pair_refuted','C22_scoring_needs_one_pose_per_pair')
c('C37','proved','','C37_failure_iff_parallel','C37_midpoint_of_shortest_segment','C37_exact')
c('C39','proved','','C39_epipolar','C39_failure_iff_same_plane','C39_exact')
c('C41','proved','exact unless the point difference is parallel to (1,1,0) or (1,-1,0) (refuted there)','C41_exact','C41_never_nan','C41_exact_for_all_points_refuted')
c('C48','proved','','C48_candidates_are_rotations','C48_true_motion_is_candidate')
c('C52','proved','','C52_absolute_body_conversion','C52_absolute_body_conversion_inverse','C52_direct_motion','C52_relative_body_conversion')
c('C53','proved','','C53_range','C53_zero_iff_rays_meet','C53_independent_of_adapter_pose')
c('C54','proved','','C54_eigensolver_restores_prior','C54_prior_preserved_refuted','C54_translation_only_hypotheses_stable')
c('C32','proved','Sturm theorem for the chain built by the code, over the reals, for every polynomial whose chain has no vanishing leading coefficient, with the exact end-point convention of the code; x^4-1 shows the chain can fail to exist.',
  'C32_sturm_count','C32_sturm_count_ends','C32_chain_rows','C32_incomplete_chain_refuted')
c('C33','proved','Termination and completeness of the bisection for every regular chain, exact real arithmetic; the hypothesis that no root is exactly on the bound is needed (refuted otherwise).',
  'C33_bracketing_complete','C33_bracketing_complete_default','C33_find_roots_number','C33_newton_fixes_roots','C33_root_on_bound_refuted')
c('C34','proved','Lagrange bound for every degree >= 2; refuted for degree 1.',
  'C34_bound','C34_bound_defined','C34_degree_one_refuted')
c('C35','proved','Partial correctness for every regular chain, termination relative to the inner Newton loops, and a polynomial on which they never end.',
  'C35_results','C35_terminates_if_newton_does','C35_termination_refuted')
c('C36','proved','Exact complex arithmetic; std::sqrt and std::pow(.,1/3) of complex numbers are any functions returning a square and a cube root. Degenerate cases refuted.',
  'C36_cubic','C36_cubic_real','C36_cubic_refuted','C36_quartic_w','C36_quartic','C36_quartic_real','C36_quartic_refuted')
c('C31','proved','Real arithmetic; any size. The condition that compared values are zero or above the precision is part of the statement and shown necessary.',
  'C31_solution_set','C31_reduced_form','C31_singular_iff','C31_exact','C31_undefined','C31_tiny_refuted')
c('C38','proved','Any SVD of the 4x4 system; existence of SVDs in every dimension is proved in GenSpectral.v.','C38_exact','C38_orthogonal_bearing_refuted')
c('C49','proved','Any SVD and any eigenvalue routine that returns the roots of the characteristic polynomial.',
  'C49_eightpt_rank','C49_eightpt_optimal','C49_eightpt_exact','C49_sevenpt_constraints','C49_sevenpt_singular','C49_sevenpt_complete','C49_sevenpt_loses_solution_refuted')
c('C44','proved','composeM is translated mechanically (tools/gen_eig.py); the Levenberg-Marquardt step, the EigenSolver and std::sort are arbitrary.',
  'C44_composeM_is_normal_sum','C44_symmetric_psd','C44_kernel','C44_true_translation','C44_output','C44_recovers_pose')
c('C45','proved','','C45_smallest_eigenvalue','C45_scalar_matrix_refuted')
c('C46','proved','Derivative in the sense of derivable_pt_lim of the standard library.','C46_composeM_jacobian','C46_smallestEV_jacobian')
c('C47','proved','EigenSolver and std::sort are quantified with explicit specifications, shown satisfiable; the descent is an arbitrary function','C47_composeG_is_constraint_sum','C47_psd','C47_kernel','C47_true_pose','C47_same_matrix','C47_jacobian','C47_output','C47_recovers_pose')
c('C59','proved','exact real arithmetic; NaN modelled as no result','C59_two_smallest_eigenvalues','C59_cost','C59_triple_refuted','C59_pure_rotation_refuted')
c('C60','proved','Binary64 arithmetic (PrimFloat). The objective and pow are arbitrary functions; the objective must map NaN to NaN and respect numerical equality of +0 and -0.','C60_descent_ends','C60_first_trial_improves','C60_flat_refuted')
c('C55','proved','Exact reals. The eigenvectors are an arbitrary list here, and pose recovery assumes the true quaternion is among them (C75 proves that for the generated eliminations).','C55_value_is_error','C55_translation_optimal','C55_defined','C55_true_pose','C55_candidates_sym','C55_candidates','C55_antipodal_refuted','C55_gradient_and_hessian','C55_polish','C55_output','C55_chirality','C55_recovers_pose','C55_zero_component_refuted')
c('C42','proved','Exact reals, including the quartic solver of roots.cpp; complex square and cube root are arbitrary functions with the defining equations.','C42_number','C42_first_two_points','C42_third_point','C42_true_pose','C42_right_angle_refuted','C42_mirror_refuted')
c('C43','proved','Exact reals, including the quartic solver; the SVD is an arbitrary function with the defining properties.','C43_real_roots','C43_true_pose','C43_three_cases_refuted','C43_behind_camera_refuted','C43_symmetric_refuted','C43_wrong_constant_refuted')
c('C61','proved','The templates are translated mechanically (tools/gen_gb.py). A verified checker (GbProps.v) shows every row operation keeps the rows in the ideal and tracks which entries are zero; exact reals, division by zero gives no result. The defect of the five-vector stage is stated exactly and refuted with a concrete run.','C61_one_vector','C61_two_vectors','C61_three_vectors','C61_four_vectors','C61_five_vectors','C61_five_vectors_refuted')
c('C56','proved','Exact reals. The decompositions are arbitrary functions with the defining properties; the null space stages and the Levenberg-Marquardt refinement are arbitrary.','C56_centroid','C56_weights','C56_linear_system','C56_best_candidate','C56_recovers_pose','C56_null_space')
c('C62','proved','Defect: independence proved for all inputs, wrong starting coefficients by concrete runs.','C62_only_first_point','C62_coincident_points_refuted')
c('C63','proved','Defect, for all inputs; NaN modelled as no result, comparisons with NaN are false.','C63_central_camera','C63_central_camera_refuted')
c('C50','proved','Exact reals. Inverse, eigenvectors, square root and singular vectors are arbitrary functions with the defining properties (an eigenvector function with the assumed property exists for every size: ceig_function_exists).','C50_equations','C50_eigenvector','C50_recovers','C50_recovers_motion','C50_epipolar','C50_orthogonal_refuted','ceig_function_exists')
c('C51','proved','Exact reals. The root finder (modelled and analysed in C33) and the Levenberg-Marquardt refinement are arguments: the root must be reported exactly, and the refinement must keep a point with zero residuals.','C51_equations','C51_polynomials','C51_rows','C51_root','C51_annihilates','C51_recovers','C51_recovers_motion','C51_epipolar','C51_shared_root_refuted')
c('C64','proved','Exact reals, any dimensions. The defect is proved by a concrete matrix.','C64_least_squares','C64_singular_detected','C64_full_rank_zero_last_row','C64_independent_of_history','C64_full_rank_refuted')
c('C65','proved','Calls interleave at the granularity of the outer loops; the defect is an explicit schedule.','C65_serial','C65_overlap_refuted')
c('C66','proved','Exact reals, any number of points.','C66_weights','C66_linear_system','C66_true_pose_solves','C66_normal_matrix')
c('C67','proved','','C67_distances','C67_all_pairs','C67_derivative')
c('C68','proved','The SVD of the normal matrix only has to put a null vector into its last column (C68_null_vector: every SVD does). The uninitialised vector X of the refinement has to be zero unless the inner solver goes through.','C68_null_vector','C68_recovers_pose')
c('C69','proved','The defect is proved for every planar scene, with a witness whose pose is unique.','C69_control_points','C69_coplanar','C69_coplanar_refuted')
c('C70','proved','','C70_rotation','C70_zero_error','C70_best','C70_first_nan','C70_sideways','C70_sideways_refuted')
c('C71','proved','The defect is proved for every negated solution.','C71_first','C71_second','C71_third','C71_columns','C71_step','C71_negated_refuted')
c('C72','proved','Levenberg-Marquardt is an arbitrary finite strategy; that it never increases the cost is a hypothesis of C72_never_worse and C72_keeps_exact. Half turns are refuted.','C72_same_as_inlier_test','C72_residual','C72_rotation','C72_start','C72_never_worse','C72_keeps_exact','C72_half_turn_refuted','C72_model','C72_prior_preserved_refuted')
c('C73','proved','As C72; that the adapter keeps its pose is refuted.','C73_same_as_inlier_test','C73_residual','C73_run','C73_rotation','C73_start','C73_never_worse','C73_keeps_exact','C73_half_turn','C73_prior_preserved_refuted','C73_model')
c('C74','proved','','C74_cost','C74_rotation','C74_never_worse','C74_closed_form_is_optimal','C74_half_turn','C74_model','C74_rotation_model')
c('C57','proved','The eigenvalues and eigenvectors of the 8x8 matrix are arbitrary here; the acceptance test itself is refuted (the absolute value is missing).','C57_equations','C57_true_pose','C57_output','C57_real_accepted','C57_positive_rejected','C57_conjugate_refuted')
c('C75','proved','Exact reals; inverse() and the EigenSolver are arguments with their specifications as hypotheses. The elimination thresholds must not discard nonzero entries (clean). The claim for four points is refuted by a concrete noise-free scene on which the elimination succeeds.','C75_eigenvector','C75_true_pose','C75_recovers','C75_plain_residual','C75_plain_eigenvector','C75_plain_candidates','C75_four_points_refuted')
c('C76','proved','Exact reals. Singular values must be zero or above the relative tolerance of the pseudo-inverse (clear_cut).','C76_rotation','C76_recovers','C76_recovers_linear','C76_least_squares','C76_central_translation_zero')
c('C77','proved','Exact reals; inverse(), PartialPivLU::solve and the EigenSolver are arguments with their specifications as hypotheses.','C77_equations','C77_eigenvector','C77_recovers','C77_candidates','C77_single_camera')
c('C78','proved','Exact reals; the EigenSolver is an argument. A zero divisor in the elimination is the result None.','C78_rows','C78_eigenvector','C78_accepts','C78_recovers')
c('C79','proved','Exact reals; the Levenberg-Marquardt minimisation, the EigenSolver and std::sort are arguments.','C79_start','C79_start_reaches','C79_half_turn_prior','C79_optimize','C79_outputs','C79_recovers')
c('C80','partial','Proved for the first 176 of the 732 statement groups of the template: all rows built there vanish at every true pose and the distances are eliminated. Missing: the remaining groups (they use that the cubic term of six later rows cancels) and with them the eigenvector statement; what the decomposition yields for a given eigenvector is C57.','C80_depths_eliminated_partial')
c('C81','proved','Entries are exact reals. The wrappers of gp3p, epnp, gpnp, upnp, the five- to eight-point, eigensolver and nonlinear functions use the same adapter and array conversions and are not modelled one by one.','C81_p2p_exact','C81_twopt_exact','C81_rotation_only_exact','C81_twopt_rotation_only_exact','C81_triangulate2_exact','C81_triangulate_exact','C81_p3p_lists','C81_round_trip','C81_reads_in_bounds','C81_triangulate_in_bounds','C81_no_rows_refuted','C81_empty_tail_refuted','C81_short_second_array_raises')
c('C82','proved','The problem classes are arguments. Runs stopped by an exception of an adapter read are not modelled. Three expectations are refuted.','C82_returns_best_or_uninitialised','C82_lmeds_returns_least_median_or_uninitialised','C82_defined_up_to','C82_failure_reported_refuted','C82_known_names','C82_unknown_name_refuted','C82_twopt_orientation_refuted','C82_twopt_misses_turned_camera')
c('C83','proved','Exact reals. Epnp::print_pose (console output) is not modelled.','C83_quaternion_of_rotation','C83_quaternion_always_defined','C83_rotation_error','C83_rotation_error_zero_iff_equal','C83_rotation_error_symmetric','C83_translation_error')
c('C84','proved','The library functions are arguments; the mex library is modelled as array sizes, classes and data. Three expectations are refuted.','C84_method_lookup','C84_dispatch','C84_output_only_if_well_formed','C84_no_undefined_behaviour','C84_index_rounding','C84_inliers_as_indices','C84_indices_in_range_refuted','C84_method_is_string_refuted')
c('C85','proved','Composition of the array model with the solver theorems; decompositions and eigenvalue routines are arguments with the hypotheses of those theorems (C49, C51, C63, C68-C70, C77). Three expectations are refuted.','C85_eightpt_exact','C85_eightpt_singular','C85_sevenpt_complete','C85_sevenpt_constraints','C85_nister_complete','C85_nister_list','C85_epnp_exact','C85_epnp_rotation_or_nan','C85_epnp_planar_refuted','C85_gpnp_blind_refuted','C85_sixpt_blind_refuted','C85_sixpt_singular_refuted','C85_row_counts','C85_short_second_array_raises')
c('C86','proved','Composition of the array model with C72, C73 and C78. The Levenberg-Marquardt minimiser is a quantified strategy over the residuals; that Eigen returns at once when there are fewer residuals than parameters is part of the model. The EigenSolver is an argument with its specification as hypothesis. The claim about good starts is refuted for half turns.','C86_refines','C86_fewer_than_six','C86_rotation_or_nan','C86_abs_never_worse','C86_rel_never_worse','C86_abs_keeps_exact','C86_rel_keeps_exact','C86_half_turn_refuted','C86_swapped_pose_raises','C86_short_second_array_raises','C86_kneip_recovers','C86_kneip_accepts','C86_kneip_first_five')
c('C87','proved','Composition of the array model with C44. The minimiser is a quantified function of the sums and the start value; starts at a half turn (no finite Cayley parameters) are excluded.','C87_minimises','C87_keeps_exact','C87_rows')
c('C88','proved','Composition of the array model with C55 and C75. The candidates of the generated solvers are an argument; C88_complete identifies them with the complete solver of C75. The claim about all rotations is refuted for quaternions with a zero component.','C88_complete','C88_recovers','C88_zero_component_refuted','C88_output','C88_rows','C88_parallel_rays')
c('C89','proved','Composition of the array model with C57. Which solutions the eigendecomposition contains is a hypothesis (the elimination is C80, partial).','C89_recovers','C89_mirror','C89_output','C89_first_three','C89_few_rows')
#NEXT

if __name__ == '__main__':
    props = [json.loads(l)['id'] for l in open(os.path.join(ROOT, 'properties.jsonl'))]
    claims = []
    for p in props:
        claims.append(C.get(p, dict(property=p, status='partial', theorems=[], note='not yet proved')))
    json.dump({'claims': claims}, open(os.path.join(ROOT, 'MANIFEST.json'), 'w'), indent=1)
    # where is every theorem?
    tdir = os.path.join(ROOT, 'rocq', 'theories')
    where = {}
    files = [l.strip() for l in open(os.path.join(ROOT, 'rocq', '_CoqProject')) if l.strip().endswith('.v') and 'Assumptions' not in l]
    for f in files:
        src = open(os.path.join(ROOT, 'rocq', f)).read()
        for m in re.finditer(r'^(?:Theorem|Lemma|Example|Corollary)\s+(\w+)', src, re.M):
            where.setdefault(m.group(1), os.path.basename(f)[:-2])
    mods, lines, seen = [], [], set()
    for cl in claims:
        for t in cl['theorems']:
            assert t in where, t
            if where[t] not in mods: mods.append(where[t])
            if t not in seen:
                seen.add(t); lines.append('Print Assumptions %s.' % t)
    with open(os.path.join(tdir, 'Assumptions.v'), 'w') as f:
        f.write('(** Generated by tools/manifest.py: assumptions of every claimed theorem. *)\n')
        for m in mods: f.write('From Verif Require %s.\nImport %s.\n' % (m, m))
        f.write('\n' + '\n'.join(lines) + '\n')
    print(len([x for x in claims if x['theorems']]), 'claims,', len(seen), 'theorems')
