(** Generated by tools/manifest.py: assumptions of every claimed theorem. *)
From Verif Require SacProps.
Import SacProps.
From Verif Require SacStopProps.
Import SacStopProps.
From Verif Require MultiProps.
Import MultiProps.
From Verif Require AdapterProps.
Import AdapterProps.
From Verif Require GeoProps.
Import GeoProps.
From Verif Require RotProps.
Import RotProps.
From Verif Require ArunProps.
Import ArunProps.
From Verif Require Spectral.
Import Spectral.
From Verif Require GaussProps.
Import GaussProps.
From Verif Require SturmProps.
Import SturmProps.
From Verif Require RootsProps.
Import RootsProps.
From Verif Require TriProps.
Import TriProps.
From Verif Require P3pTop.
Import P3pTop.
From Verif Require P3pExamples.
Import P3pExamples.
From Verif Require GaoProps.
Import GaoProps.
From Verif Require GaoExamples.
Import GaoExamples.
From Verif Require EigProps.
Import EigProps.
From Verif Require EigEV.
Import EigEV.
From Verif Require EigJac.
Import EigJac.
From Verif Require GeProps.
Import GeProps.
From Verif Require GeOut.
Import GeOut.
From Verif Require EpiProps.
Import EpiProps.
From Verif Require EpiExamples.
Import EpiExamples.
From Verif Require FiveptProps.
Import FiveptProps.
From Verif Require CEig.
Import CEig.
From Verif Require UpnpProps.
Import UpnpProps.
From Verif Require UpnpProps2.
Import UpnpProps2.
From Verif Require UpnpProps3.
Import UpnpProps3.
From Verif Require GpnpProps.
Import GpnpProps.
From Verif Require Gp3pProps.
Import Gp3pProps.
From Verif Require GeEV.
Import GeEV.
From Verif Require DescentProps.
Import DescentProps.
From Verif Require GpnpGb.
Import GpnpGb.
From Verif Require GpnpExamples.
Import GpnpExamples.
From Verif Require GpnpCoincident.
Import GpnpCoincident.
From Verif Require QrProps.
Import QrProps.
From Verif Require EpnpProps.
Import EpnpProps.
From Verif Require NlProps.
Import NlProps.
From Verif Require UpnpActProps.
Import UpnpActProps.
From Verif Require UpnpCand.
Import UpnpCand.
From Verif Require UpnpActEx3.
Import UpnpActEx3.
From Verif Require SeventeenProps.
Import SeventeenProps.
From Verif Require SixptProps.
Import SixptProps.
From Verif Require SixptDegen.
Import SixptDegen.
From Verif Require KneipProps.
Import KneipProps.
From Verif Require EigSacProps.
Import EigSacProps.
From Verif Require Gp3pElim.
Import Gp3pElim.
From Verif Require PyProps.
Import PyProps.
From Verif Require EpnpQuatProps.
Import EpnpQuatProps.
From Verif Require MexProps.
Import MexProps.
From Verif Require Py2Props.
Import Py2Props.
From Verif Require Py3Props.
Import Py3Props.
From Verif Require Py3Kneip.
Import Py3Kneip.
From Verif Require Py4Props.
Import Py4Props.
From Verif Require Py5Props.
Import Py5Props.
From Verif Require Py6Props.
Import Py6Props.

Print Assumptions C01_pool_never_damaged.
Print Assumptions C01_samples_without_replacement.
Print Assumptions C01_samples_distinct.
Print Assumptions C02_getSamples_outcomes.
Print Assumptions C03_ransac_terminates.
Print Assumptions C03_ransac_budget.
Print Assumptions C04_ransac_returns_best.
Print Assumptions C05_select_is_strictly_below.
Print Assumptions C05_count_is_number_selected.
Print Assumptions C05_nan_never_inlier.
Print Assumptions C05_ransac_inliers_of_model.
Print Assumptions C06_success_iff_hypothesis_evaluated.
Print Assumptions C07_reuse_refuted.
Print Assumptions C07_own_hypothesis_or_unchanged.
Print Assumptions C08_max_iterations_refuted.
Print Assumptions C08_zero_iterations_evaluates_nothing.
Print Assumptions C09_stops_only_for_a_reason.
Print Assumptions C09_confidence.
Print Assumptions C09_k_positive.
Print Assumptions C09_k_never_increases.
Print Assumptions C09_k_tight.
Print Assumptions C09_tiny_ratio_refuted.
Print Assumptions C10_run_depends_on_consumed_randomness.
Print Assumptions C10_request_consumes_bounded_randomness.
Print Assumptions C11_no_overflow_in_usable_range.
Print Assumptions C12_lmeds_least_median.
Print Assumptions C12_lmeds_terminates_in_budget.
Print Assumptions C13_lmeds_inliers_at_most_threshold.
Print Assumptions C13_agree_unless_equal.
Print Assumptions C13_boundary_differs_refuted.
Print Assumptions C13_failure_keeps_inliers.
Print Assumptions C13_stale_inliers_refuted.
Print Assumptions C14_samples_per_camera.
Print Assumptions C14_cameras_draw_independently.
Print Assumptions C14_terminates.
Print Assumptions C14_no_undefined_behaviour.
Print Assumptions C14_returns_best.
Print Assumptions C14_inliers_per_camera.
Print Assumptions C14_success_iff_hypothesis_evaluated.
Print Assumptions C15_one_camera_is_ransac.
Print Assumptions C16_multi_to_serial_and_back.
Print Assumptions C16_serial_to_multi_and_back.
Print Assumptions C16_serial_range.
Print Assumptions C16_serial_access.
Print Assumptions C16_serial_camera_attributes.
Print Assumptions C16_number_of_correspondences.
Print Assumptions C16_convert_lists.
Print Assumptions C17_sizes_even.
Print Assumptions C17_rand_max_refuted.
Print Assumptions C17_no_camera_refuted.
Print Assumptions C18_round_robin.
Print Assumptions C18_six_indices.
Print Assumptions C18_bad_start_refuted.
Print Assumptions C19_prefix_selection.
Print Assumptions C19_selected_score_refuted.
Print Assumptions C20_selection_is_first_minimum.
Print Assumptions C20_absolute.
Print Assumptions C20_absolute_true_pose.
Print Assumptions C20_central_relative.
Print Assumptions C20_quality_is_total_score.
Print Assumptions C21_range_and_zero.
Print Assumptions C21_noise_free.
Print Assumptions C21_multi_absolute_scores.
Print Assumptions C22_one_pose_per_pair_refuted.
Print Assumptions C22_scoring_needs_one_pose_per_pair.
Print Assumptions C23_all_is_explicit_list.
Print Assumptions C23_sublist_is_restriction.
Print Assumptions C23_array_central_absolute.
Print Assumptions C23_array_noncentral_absolute.
Print Assumptions C23_array_central_relative.
Print Assumptions C23_array_noncentral_relative.
Print Assumptions C23_array_multi.
Print Assumptions C23_short_points_refuted.
Print Assumptions C24_cayley2rot_is_rotation.
Print Assumptions C24_reduced_is_scaled.
Print Assumptions C24_cayley_transform.
Print Assumptions C25_rot_of_cayley_and_back.
Print Assumptions C25_cayley_of_rot_and_back.
Print Assumptions C25_half_turn_is_singular.
Print Assumptions C26_unit_quaternion_gives_rotation.
Print Assumptions C26_rotates_like_conjugation.
Print Assumptions C26_composition.
Print Assumptions C26_antipodal_same.
Print Assumptions C26_two_to_one.
Print Assumptions C26_non_unit_is_no_rotation.
Print Assumptions C27_round_trip.
Print Assumptions C27_round_trip_rotation.
Print Assumptions C27_vanishing_component_refuted.
Print Assumptions C27_identity_refuted.
Print Assumptions C28_arun_is_rotation.
Print Assumptions svd_exists.
Print Assumptions C29_arun_maximises_trace.
Print Assumptions C29_arun_is_optimal.
Print Assumptions C29_rigid_alignment_is_optimal.
Print Assumptions C30_exact_alignment.
Print Assumptions C30_recovers_the_motion.
Print Assumptions C31_solution_set.
Print Assumptions C31_reduced_form.
Print Assumptions C31_singular_iff.
Print Assumptions C31_exact.
Print Assumptions C31_undefined.
Print Assumptions C31_tiny_refuted.
Print Assumptions C32_sturm_count.
Print Assumptions C32_sturm_count_ends.
Print Assumptions C32_chain_rows.
Print Assumptions C32_incomplete_chain_refuted.
Print Assumptions C33_bracketing_complete.
Print Assumptions C33_bracketing_complete_default.
Print Assumptions C33_find_roots_number.
Print Assumptions C33_newton_fixes_roots.
Print Assumptions C33_root_on_bound_refuted.
Print Assumptions C34_bound.
Print Assumptions C34_bound_defined.
Print Assumptions C34_degree_one_refuted.
Print Assumptions C35_results.
Print Assumptions C35_terminates_if_newton_does.
Print Assumptions C35_termination_refuted.
Print Assumptions C36_cubic.
Print Assumptions C36_cubic_real.
Print Assumptions C36_cubic_refuted.
Print Assumptions C36_quartic_w.
Print Assumptions C36_quartic.
Print Assumptions C36_quartic_real.
Print Assumptions C36_quartic_refuted.
Print Assumptions C37_failure_iff_parallel.
Print Assumptions C37_midpoint_of_shortest_segment.
Print Assumptions C37_exact.
Print Assumptions C38_exact.
Print Assumptions C38_orthogonal_bearing_refuted.
Print Assumptions C39_epipolar.
Print Assumptions C39_failure_iff_same_plane.
Print Assumptions C39_exact.
Print Assumptions C40_always_a_rotation.
Print Assumptions C40_rotationOnly_exact.
Print Assumptions C40_twopt_rotationOnly_exact.
Print Assumptions C40_same_direction_refuted.
Print Assumptions C41_exact.
Print Assumptions C41_never_nan.
Print Assumptions C41_exact_for_all_points_refuted.
Print Assumptions C42_number.
Print Assumptions C42_first_two_points.
Print Assumptions C42_third_point.
Print Assumptions C42_true_pose.
Print Assumptions C42_right_angle_refuted.
Print Assumptions C42_mirror_refuted.
Print Assumptions C43_real_roots.
Print Assumptions C43_true_pose.
Print Assumptions C43_three_cases_refuted.
Print Assumptions C43_behind_camera_refuted.
Print Assumptions C43_symmetric_refuted.
Print Assumptions C43_wrong_constant_refuted.
Print Assumptions C44_composeM_is_normal_sum.
Print Assumptions C44_symmetric_psd.
Print Assumptions C44_kernel.
Print Assumptions C44_true_translation.
Print Assumptions C44_output.
Print Assumptions C44_recovers_pose.
Print Assumptions C45_smallest_eigenvalue.
Print Assumptions C45_scalar_matrix_refuted.
Print Assumptions C46_composeM_jacobian.
Print Assumptions C46_smallestEV_jacobian.
Print Assumptions C47_composeG_is_constraint_sum.
Print Assumptions C47_psd.
Print Assumptions C47_kernel.
Print Assumptions C47_true_pose.
Print Assumptions C47_same_matrix.
Print Assumptions C47_jacobian.
Print Assumptions C47_output.
Print Assumptions C47_recovers_pose.
Print Assumptions C48_candidates_are_rotations.
Print Assumptions C48_true_motion_is_candidate.
Print Assumptions C49_eightpt_rank.
Print Assumptions C49_eightpt_optimal.
Print Assumptions C49_eightpt_exact.
Print Assumptions C49_sevenpt_constraints.
Print Assumptions C49_sevenpt_singular.
Print Assumptions C49_sevenpt_complete.
Print Assumptions C49_sevenpt_loses_solution_refuted.
Print Assumptions C50_equations.
Print Assumptions C50_eigenvector.
Print Assumptions C50_recovers.
Print Assumptions C50_recovers_motion.
Print Assumptions C50_epipolar.
Print Assumptions C50_orthogonal_refuted.
Print Assumptions ceig_function_exists.
Print Assumptions C51_equations.
Print Assumptions C51_polynomials.
Print Assumptions C51_rows.
Print Assumptions C51_root.
Print Assumptions C51_annihilates.
Print Assumptions C51_recovers.
Print Assumptions C51_recovers_motion.
Print Assumptions C51_epipolar.
Print Assumptions C51_shared_root_refuted.
Print Assumptions C52_absolute_body_conversion.
Print Assumptions C52_absolute_body_conversion_inverse.
Print Assumptions C52_direct_motion.
Print Assumptions C52_relative_body_conversion.
Print Assumptions C53_range.
Print Assumptions C53_zero_iff_rays_meet.
Print Assumptions C53_independent_of_adapter_pose.
Print Assumptions C54_eigensolver_restores_prior.
Print Assumptions C54_prior_preserved_refuted.
Print Assumptions C54_translation_only_hypotheses_stable.
Print Assumptions C55_value_is_error.
Print Assumptions C55_translation_optimal.
Print Assumptions C55_defined.
Print Assumptions C55_true_pose.
Print Assumptions C55_candidates_sym.
Print Assumptions C55_candidates.
Print Assumptions C55_antipodal_refuted.
Print Assumptions C55_gradient_and_hessian.
Print Assumptions C55_polish.
Print Assumptions C55_output.
Print Assumptions C55_chirality.
Print Assumptions C55_recovers_pose.
Print Assumptions C55_zero_component_refuted.
Print Assumptions C56_centroid.
Print Assumptions C56_weights.
Print Assumptions C56_linear_system.
Print Assumptions C56_best_candidate.
Print Assumptions C56_recovers_pose.
Print Assumptions C56_null_space.
Print Assumptions C57_equations.
Print Assumptions C57_true_pose.
Print Assumptions C57_output.
Print Assumptions C57_real_accepted.
Print Assumptions C57_positive_rejected.
Print Assumptions C57_conjugate_refuted.
Print Assumptions C58_sampling_is_unbiased.
Print Assumptions C59_two_smallest_eigenvalues.
Print Assumptions C59_cost.
Print Assumptions C59_triple_refuted.
Print Assumptions C59_pure_rotation_refuted.
Print Assumptions C60_descent_ends.
Print Assumptions C60_first_trial_improves.
Print Assumptions C60_flat_refuted.
Print Assumptions C61_one_vector.
Print Assumptions C61_two_vectors.
Print Assumptions C61_three_vectors.
Print Assumptions C61_four_vectors.
Print Assumptions C61_five_vectors.
Print Assumptions C61_five_vectors_refuted.
Print Assumptions C62_only_first_point.
Print Assumptions C62_coincident_points_refuted.
Print Assumptions C63_central_camera.
Print Assumptions C63_central_camera_refuted.
Print Assumptions C64_least_squares.
Print Assumptions C64_singular_detected.
Print Assumptions C64_full_rank_zero_last_row.
Print Assumptions C64_independent_of_history.
Print Assumptions C64_full_rank_refuted.
Print Assumptions C65_serial.
Print Assumptions C65_overlap_refuted.
Print Assumptions C66_weights.
Print Assumptions C66_linear_system.
Print Assumptions C66_true_pose_solves.
Print Assumptions C66_normal_matrix.
Print Assumptions C67_distances.
Print Assumptions C67_all_pairs.
Print Assumptions C67_derivative.
Print Assumptions C68_null_vector.
Print Assumptions C68_recovers_pose.
Print Assumptions C69_control_points.
Print Assumptions C69_coplanar.
Print Assumptions C69_coplanar_refuted.
Print Assumptions C70_rotation.
Print Assumptions C70_zero_error.
Print Assumptions C70_best.
Print Assumptions C70_first_nan.
Print Assumptions C70_sideways.
Print Assumptions C70_sideways_refuted.
Print Assumptions C71_first.
Print Assumptions C71_second.
Print Assumptions C71_third.
Print Assumptions C71_columns.
Print Assumptions C71_step.
Print Assumptions C71_negated_refuted.
Print Assumptions C72_same_as_inlier_test.
Print Assumptions C72_residual.
Print Assumptions C72_rotation.
Print Assumptions C72_start.
Print Assumptions C72_never_worse.
Print Assumptions C72_keeps_exact.
Print Assumptions C72_half_turn_refuted.
Print Assumptions C72_model.
Print Assumptions C72_prior_preserved_refuted.
Print Assumptions C73_same_as_inlier_test.
Print Assumptions C73_residual.
Print Assumptions C73_run.
Print Assumptions C73_rotation.
Print Assumptions C73_start.
Print Assumptions C73_never_worse.
Print Assumptions C73_keeps_exact.
Print Assumptions C73_half_turn.
Print Assumptions C73_prior_preserved_refuted.
Print Assumptions C73_model.
Print Assumptions C74_cost.
Print Assumptions C74_rotation.
Print Assumptions C74_never_worse.
Print Assumptions C74_closed_form_is_optimal.
Print Assumptions C74_half_turn.
Print Assumptions C74_model.
Print Assumptions C74_rotation_model.
Print Assumptions C75_eigenvector.
Print Assumptions C75_true_pose.
Print Assumptions C75_recovers.
Print Assumptions C75_plain_residual.
Print Assumptions C75_plain_eigenvector.
Print Assumptions C75_plain_candidates.
Print Assumptions C75_four_points_refuted.
Print Assumptions C76_rotation.
Print Assumptions C76_recovers.
Print Assumptions C76_recovers_linear.
Print Assumptions C76_least_squares.
Print Assumptions C76_central_translation_zero.
Print Assumptions C77_equations.
Print Assumptions C77_eigenvector.
Print Assumptions C77_recovers.
Print Assumptions C77_candidates.
Print Assumptions C77_single_camera.
Print Assumptions C78_rows.
Print Assumptions C78_eigenvector.
Print Assumptions C78_accepts.
Print Assumptions C78_recovers.
Print Assumptions C79_start.
Print Assumptions C79_start_reaches.
Print Assumptions C79_half_turn_prior.
Print Assumptions C79_optimize.
Print Assumptions C79_outputs.
Print Assumptions C79_recovers.
Print Assumptions C80_depths_eliminated_partial.
Print Assumptions C81_p2p_exact.
Print Assumptions C81_twopt_exact.
Print Assumptions C81_rotation_only_exact.
Print Assumptions C81_twopt_rotation_only_exact.
Print Assumptions C81_triangulate2_exact.
Print Assumptions C81_triangulate_exact.
Print Assumptions C81_p3p_lists.
Print Assumptions C81_round_trip.
Print Assumptions C81_reads_in_bounds.
Print Assumptions C81_triangulate_in_bounds.
Print Assumptions C81_no_rows_refuted.
Print Assumptions C81_empty_tail_refuted.
Print Assumptions C81_short_second_array_raises.
Print Assumptions C82_returns_best_or_uninitialised.
Print Assumptions C82_lmeds_returns_least_median_or_uninitialised.
Print Assumptions C82_defined_up_to.
Print Assumptions C82_failure_reported_refuted.
Print Assumptions C82_known_names.
Print Assumptions C82_unknown_name_refuted.
Print Assumptions C82_twopt_orientation_refuted.
Print Assumptions C82_twopt_misses_turned_camera.
Print Assumptions C83_quaternion_of_rotation.
Print Assumptions C83_quaternion_always_defined.
Print Assumptions C83_rotation_error.
Print Assumptions C83_rotation_error_zero_iff_equal.
Print Assumptions C83_rotation_error_symmetric.
Print Assumptions C83_translation_error.
Print Assumptions C84_method_lookup.
Print Assumptions C84_dispatch.
Print Assumptions C84_output_only_if_well_formed.
Print Assumptions C84_no_undefined_behaviour.
Print Assumptions C84_index_rounding.
Print Assumptions C84_inliers_as_indices.
Print Assumptions C84_indices_in_range_refuted.
Print Assumptions C84_method_is_string_refuted.
Print Assumptions C85_eightpt_exact.
Print Assumptions C85_eightpt_singular.
Print Assumptions C85_sevenpt_complete.
Print Assumptions C85_sevenpt_constraints.
Print Assumptions C85_nister_complete.
Print Assumptions C85_nister_list.
Print Assumptions C85_epnp_exact.
Print Assumptions C85_epnp_rotation_or_nan.
Print Assumptions C85_epnp_planar_refuted.
Print Assumptions C85_gpnp_blind_refuted.
Print Assumptions C85_sixpt_blind_refuted.
Print Assumptions C85_sixpt_singular_refuted.
Print Assumptions C85_row_counts.
Print Assumptions C85_short_second_array_raises.
Print Assumptions C86_refines.
Print Assumptions C86_fewer_than_six.
Print Assumptions C86_rotation_or_nan.
Print Assumptions C86_abs_never_worse.
Print Assumptions C86_rel_never_worse.
Print Assumptions C86_abs_keeps_exact.
Print Assumptions C86_rel_keeps_exact.
Print Assumptions C86_half_turn_refuted.
Print Assumptions C86_swapped_pose_raises.
Print Assumptions C86_short_second_array_raises.
Print Assumptions C86_kneip_recovers.
Print Assumptions C86_kneip_accepts.
Print Assumptions C86_kneip_first_five.
Print Assumptions C87_minimises.
Print Assumptions C87_keeps_exact.
Print Assumptions C87_rows.
Print Assumptions C88_complete.
Print Assumptions C88_recovers.
Print Assumptions C88_zero_component_refuted.
Print Assumptions C88_output.
Print Assumptions C88_rows.
Print Assumptions C88_parallel_rays.
Print Assumptions C89_recovers.
Print Assumptions C89_mirror.
Print Assumptions C89_output.
Print Assumptions C89_first_three.
Print Assumptions C89_few_rows.
