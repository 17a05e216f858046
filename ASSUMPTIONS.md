# What Print Assumptions lists

Written by tools/assumptions.py from the output of the `Prop_*.v` files.

## Closed under the global context

Theorems: `C77_assembly`, `C77_ready`, `C77_rejects`, `C77_trail_edge`, `C77_deviation_edge`, `C77_load`, `C77_support`, `C78_move_partial`, `C78_shift`, `C79_node`, `C79_edge_partial`, `C80_form_finding_partial`, `C80_weight_partial`, `C80_constrained_partial`, `C81_counts`, `C81_deviations`, `C81_ready`, `C81_exists_partial`, `C82_edges`, `C82_reactions`, `C83_topology`, `C83_assembled`, `C83_form`, `C55_key_text`, `C55_key_distinct`, `C55_parameter`, `C55_parameter_fields`, `C55_constraint_partial`, `C55_plain_target`, `C56_unique`, `C56_no_loss`, `C56_diagram`, `C01_integrity`, `C02_fresh_key`, `C03_add_node`, `C04_lookup`, `C05_add_edge_ends`, `C06_welding`, `C06_data`, `C07_add_edge_writes`, `C08_add_edge_rejects`, `C09_add_support`, `C09_add_load`, `C10_move_partial`, `C60_failing_add_edge_partial`, `C71_palette`, `C57_same`, `C57_default`, `C57_ignored`, `C57_no_edges`, `C57_empty`, `C71_one_look`, `C71_topology`, `C71_nodes`, `C71_lines`, `C71_crosses`, `C72_drawn`, `C72_kinds`, `C72_supports_partial`, `C72_trails`, `C73_partial`, `C73_refuted`, `C35_one_iteration`, `C36_success`, `C36_failure`, `C36_no_iterations`, `C36_single_iteration`, `C37_frame`, `C37_inputs`, `C38_kmax_beyond`, `C38_negative`, `C39_kmax_partial`, `C40_lengths`, `C58_origins_partial`, `C61_built_ready`, `C61_built_auxiliary_ready`, `C61_ready_kept`, `C66_origins_only`, `C86_topology_partial`, `C86_rebuilt_partial`, `C86_unbuilt`, `C86_form`, `C86_memory`, `C86_lost`, `C75_upstream`, `C75_later`, `C76_more_passes_partial`, `C96_one`, `C96_topology`, `C96_form`, `C96_left`, `C96_viewer_partial`, `C96_given`, `C96_refuted`, `C89_same`, `C89_only`, `C90_calls_partial`, `C92_by_hand`, `C92_evaluation`, `C92_still_built`, `C105_lookup_partial`, `C105_still_partial`, `C45_frame`, `C45_objective_frame`, `C45_round_trip`, `C45_idle`, `C46_objective`, `C46_solver`, `C47_forward_differences`, `C47_component`, `C47_objective_gradient`, `C52_variables_partial`, `C52_added_partial`, `C53_empty_problem`, `C53_unknown_gradient`, `C53_unknown_algorithm`, `C54_last_point_partial`, `C54_roundoff`, `C69_problem`, `C69_unique`, `C69_accepted`, `C69_results`, `C69_autodiff`, `C69_proxy`, `C68_held`, `C68_raises`, `C68_obtained`, `C93_solution_partial`, `C93_objects`, `C93_results`, `C93_stuck`, `C93_lost`, `C104_same`, `C104_report`, `C104_true`, `C104_optimizer`, `C104_status_partial`, `C104_topology`, `C104_form`, `C11_build_trails_total`, `C11_search_bound`, `C12_trail_structure`, `C13_no_incomplete_trails`, `C13_auxiliary_failure_keeps_trails`, `C14_chains_recovered`, `C15_one_trail_partial`, `C16_rebuild_partial`, `C17_auxiliary_trails`, `C18_register_is_cleared`, `C19_build_frame`, `C19_build_auxiliary_frame`, `C20_shift_trail`, `C20_shift_rejects`, `C21_sequences`, `C22_direct_indirect`, `C23_connected_edges`, `C24_trails_sequences`, `C24_after_build`, `C59_supports_kept_partial`, `C67_nodes`, `C67_loaded`, `C67_supported`, `C67_edges`, `C67_auxiliary`, `C99_partial`, `C99_stays`, `C99_new`, `C73_objects`, `C73_new`, `C101_nodes`, `C101_assigned`.

## 3 axioms

* `ClassicalDedekindReals.sig_forall_dec`
* `ClassicalDedekindReals.sig_not_dec`
* `FunctionalExtensionality.functional_extensionality_dep`

Theorems: `C87_bounds_partial`, `C87_reported_partial`, `C87_repeated_partial`, `C84_form_partial`, `C84_topology_partial`, `C85_constraints`, `C85_direction`, `C85_none`, `C85_parameters`, `C48_penalty`, `C48_no_deviation`, `C48_total`, `C48_zero`, `C49_line`, `C49_plane`, `C50_polyline`, `C50_penalty`, `C51_parallel`, `C51_scaled`, `C55_goals`, `C55_goal_fields`, `C04_rounding`, `C04_lookup_distance`, `C57_range`, `C57_order`, `C70_loads`, `C70_reactions`, `C70_outside`, `C71_plotter_form`, `C71_viewer_form`, `C71_state`, `C25_node_equilibrium`, `C26_opposite_forces`, `C26_pulls`, `C27_plane_intersection`, `C28_planes`, `C29_lengths_kept`, `C30_state_partial`, `C31_direct_equilibrium`, `C32_residual_bound`, `C32_at_rest`, `C33_force_balance`, `C33_direct`, `C34_moment_balance`, `C34_direct`, `C35_success`, `C36_displacement`, `C36_no_convergence`, `C40_signed_lengths`, `C42_translation`, `C42_translated`, `C42_moved`, `C42_image`, `C43_reloaded_form`, `C43_reloaded`, `C62_rotated_form`, `C62_rotated`, `C63_enlarged_form`, `C63_enlarged`, `C64_flat`, `C103_gradient`, `C103_jump`, `C103_kink`, `C74_renamed_partial`, `C88_symmetric_partial`, `C88_axis_partial`, `C75_matched`, `C76_looser`, `C96_agree`, `C89_silence`, `C89_told_partial`, `C91_value`, `C91_small`, `C91_zero`, `C91_solved_partial`, `C41_iteration`, `C41_numpy_succeeds`, `C41_numpy_displacement`, `C41_direct`, `C44_bounds`, `C44_solver`, `C46_value`, `C47_affine`, `C104_edge`, `C97_section`, `C97_error`, `C97_apart`, `C97_single`, `C97_levels`, `C98_virtual_work`, `C98_maxwell`, `C98_rigid`, `C102_continuous`, `C102_numpy`, `C102_differentiable`, `C102_jump_unloaded`, `C102_jump_tolerance`, `C67_loaded_length`, `C94_at_most_one`, `C94_form`, `C94_only`, `C95_final`, `C95_rest`, `C100_made`, `C101_lines`, `C101_edges_partial`.

## 16 axioms

* `PrimFloat.eqb`
* `PrimFloat.sqrt`
* `PrimInt63.eqb`
* `PrimInt63.int`
* `PrimInt63.land`
* `PrimInt63.lsr`
* `abs`
* `add`
* `div`
* `float`
* `frshiftexp`
* `ltb`
* `mul`
* `normfr_mantissa`
* `opp`
* `sub`

Theorems: `C55_refuted`.

## 18 axioms

* `ClassicalDedekindReals.sig_forall_dec`
* `FunctionalExtensionality.functional_extensionality_dep`
* `PrimFloat.eqb`
* `PrimInt63.eqb`
* `PrimInt63.int`
* `PrimInt63.land`
* `PrimInt63.lsr`
* `abs`
* `add`
* `div`
* `float`
* `frshiftexp`
* `ltb`
* `mul`
* `normfr_mantissa`
* `opp`
* `sqrt`
* `sub`

Theorems: `C04_rounding_float`, `C04_lookup_float`.

## 20 axioms

* `PrimFloat.eqb`
* `PrimFloat.sqrt`
* `PrimInt63.eqb`
* `PrimInt63.int`
* `PrimInt63.land`
* `PrimInt63.lor`
* `PrimInt63.lsl`
* `PrimInt63.lsr`
* `PrimInt63.sub`
* `abs`
* `add`
* `div`
* `float`
* `frshiftexp`
* `ltb`
* `mul`
* `normfr_mantissa`
* `of_uint63`
* `opp`
* `sub`

Theorems: `C78_refuted`, `C79_refuted`, `C80_refuted`, `C81_refuted`, `C83_refuted`, `C84_refuted`, `C57_plotter_refuted`, `C70_refuted`, `C71_refuted`, `C72_refuted`, `C30_refuted`, `C39_refuted`, `C58_refuted`, `C65_refuted`, `C74_refuted`, `C88_refuted`, `C76_refuted`, `C90_refuted`, `C89_refuted`, `C91_refuted`, `C41_zero_length_differs`, `C41_threshold_differs`, `C52_refuted`, `C52_replaced_refuted`, `C54_refuted`, `C54_settings_refuted`, `C12_self_loop_refuted`, `C12_antiparallel_refuted`, `C15_refuted`, `C15_twice_refuted`, `C16_refuted`, `C18_refuted`, `C59_refuted`, `C99_refuted`, `C101_edges_refuted`, `C101_refuted`.

## 20 axioms

* `PrimFloat.eqb`
* `PrimInt63.eqb`
* `PrimInt63.int`
* `PrimInt63.land`
* `PrimInt63.lor`
* `PrimInt63.lsl`
* `PrimInt63.lsr`
* `PrimInt63.sub`
* `abs`
* `add`
* `div`
* `float`
* `frshiftexp`
* `ltb`
* `mul`
* `normfr_mantissa`
* `of_uint63`
* `opp`
* `sqrt`
* `sub`

Theorems: `C10_refuted`, `C60_refuted`, `C86_refuted`, `C93_refuted`, `C104_refuted`.

## 21 axioms

* `PrimFloat.eqb`
* `PrimFloat.leb`
* `PrimFloat.sqrt`
* `PrimInt63.eqb`
* `PrimInt63.int`
* `PrimInt63.land`
* `PrimInt63.lor`
* `PrimInt63.lsl`
* `PrimInt63.lsr`
* `PrimInt63.sub`
* `abs`
* `add`
* `div`
* `float`
* `frshiftexp`
* `ltb`
* `mul`
* `normfr_mantissa`
* `of_uint63`
* `opp`
* `sub`

Theorems: `C87_refuted`, `C87_twice_refuted`, `C105_refuted`, `C105_twice_refuted`.

## 22 axioms

* `FloatAxioms.eqb_spec`
* `PrimFloat.eqb`
* `PrimFloat.sqrt`
* `PrimInt63.eqb`
* `PrimInt63.int`
* `PrimInt63.land`
* `PrimInt63.lsr`
* `abs`
* `add`
* `add_spec`
* `div`
* `float`
* `frshiftexp`
* `ltb`
* `ltb_spec`
* `mul`
* `mul_spec`
* `normfr_mantissa`
* `opp`
* `sqrt_spec`
* `sub`
* `sub_spec`

Theorems: `C65_exhausted_partial`.

## 23 axioms

* `FloatAxioms.eqb_spec`
* `PrimFloat.eqb`
* `PrimFloat.sqrt`
* `PrimInt63.eqb`
* `PrimInt63.int`
* `PrimInt63.land`
* `PrimInt63.lor`
* `PrimInt63.lsl`
* `PrimInt63.lsr`
* `PrimInt63.sub`
* `abs`
* `add`
* `div`
* `float`
* `frshiftexp`
* `ldshiftexp`
* `ltb`
* `mul`
* `normfr_mantissa`
* `of_uint63`
* `opp`
* `sub`
* `sub_spec`

Theorems: `C55_finite`.

## 23 axioms

* `ClassicalDedekindReals.sig_forall_dec`
* `FloatAxioms.eqb_spec`
* `FunctionalExtensionality.functional_extensionality_dep`
* `PrimFloat.eqb`
* `PrimInt63.eqb`
* `PrimInt63.int`
* `PrimInt63.land`
* `PrimInt63.lsr`
* `abs`
* `abs_spec`
* `add`
* `div`
* `div_spec`
* `float`
* `frshiftexp`
* `ltb`
* `ltb_spec`
* `mul`
* `normfr_mantissa`
* `opp`
* `opp_spec`
* `sqrt`
* `sub`

Theorems: `C40_lengths_float`.
