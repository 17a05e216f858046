{
 "claims": [
  {
   "property": "C01",
   "status": "proved",
   "theorems": [
    "C01_integrity"
   ],
   "note": ""
  },
  {
   "property": "C02",
   "status": "proved",
   "theorems": [
    "C02_fresh_key"
   ],
   "note": ""
  },
  {
   "property": "C03",
   "status": "proved",
   "theorems": [
    "C03_add_node"
   ],
   "note": ""
  },
  {
   "property": "C04",
   "status": "proved",
   "theorems": [
    "C04_lookup",
    "C04_rounding",
    "C04_lookup_distance",
    "C04_rounding_float",
    "C04_lookup_float"
   ],
   "note": "C04_lookup: for any scalar type; C04_lookup_distance: over the reals, with the distance bound; C04_lookup_float: over binary64 floats. C04_rounding and C04_rounding_float: rounding is to the nearest decimal, ties to even."
  },
  {
   "property": "C05",
   "status": "proved",
   "theorems": [
    "C05_add_edge_ends"
   ],
   "note": ""
  },
  {
   "property": "C06",
   "status": "proved",
   "theorems": [
    "C06_welding",
    "C06_data"
   ],
   "note": ""
  },
  {
   "property": "C07",
   "status": "proved",
   "theorems": [
    "C07_add_edge_writes"
   ],
   "note": ""
  },
  {
   "property": "C08",
   "status": "proved",
   "theorems": [
    "C08_add_edge_rejects"
   ],
   "note": "Integer ends only, as stated; see C60 for ends given by coordinates."
  },
  {
   "property": "C09",
   "status": "proved",
   "theorems": [
    "C09_add_support",
    "C09_add_load"
   ],
   "note": ""
  },
  {
   "property": "C10",
   "status": "partial",
   "theorems": [
    "C10_move_partial",
    "C10_refuted"
   ],
   "note": "REFUTED in its last clause: node_xyz deletes the lookup entry of the new location instead of the old one, so lookup at the old location still returns the moved node (C10_refuted). All other clauses: C10_move_partial, which also shows that every other lookup is unchanged."
  },
  {
   "property": "C11",
   "status": "proved",
   "theorems": [
    "C11_build_trails_total",
    "C11_search_bound"
   ],
   "note": ""
  },
  {
   "property": "C12",
   "status": "proved",
   "theorems": [
    "C12_trail_structure",
    "C12_self_loop_refuted",
    "C12_antiparallel_refuted"
   ],
   "note": "For diagrams without self loops and anti-parallel edges, as stated; C12_self_loop_refuted and C12_antiparallel_refuted show that the condition is needed."
  },
  {
   "property": "C13",
   "status": "proved",
   "theorems": [
    "C13_no_incomplete_trails",
    "C13_auxiliary_failure_keeps_trails"
   ],
   "note": ""
  },
  {
   "property": "C14",
   "status": "proved",
   "theorems": [
    "C14_chains_recovered"
   ],
   "note": ""
  },
  {
   "property": "C15",
   "status": "partial",
   "theorems": [
    "C15_one_trail_partial",
    "C15_refuted",
    "C15_twice_refuted"
   ],
   "note": "REFUTED in general: with branching trail edges a trail is overwritten by another with the same origin (C15_refuted) or two trails share nodes (C15_twice_refuted), and build_trails still succeeds. Holds for well-posed chains: C15_one_trail_partial."
  },
  {
   "property": "C16",
   "status": "partial",
   "theorems": [
    "C16_rebuild_partial",
    "C16_refuted"
   ],
   "note": "REFUTED in general: a support without trail edges is turned into an origin and the second call raises (C16_refuted). Holds for well-posed chains: C16_rebuild_partial."
  },
  {
   "property": "C17",
   "status": "proved",
   "theorems": [
    "C17_auxiliary_trails"
   ],
   "note": ""
  },
  {
   "property": "C18",
   "status": "partial",
   "theorems": [
    "C18_register_is_cleared",
    "C18_refuted"
   ],
   "note": "REFUTED for every diagram with well-posed chains: the second call always empties the register although nodes, edges and trails stay (C18_register_is_cleared, C18_refuted). Nothing of the property is left to prove."
  },
  {
   "property": "C19",
   "status": "proved",
   "theorems": [
    "C19_build_frame",
    "C19_build_auxiliary_frame"
   ],
   "note": ""
  },
  {
   "property": "C20",
   "status": "proved",
   "theorems": [
    "C20_shift_trail",
    "C20_shift_rejects"
   ],
   "note": ""
  },
  {
   "property": "C21",
   "status": "proved",
   "theorems": [
    "C21_sequences"
   ],
   "note": ""
  },
  {
   "property": "C22",
   "status": "proved",
   "theorems": [
    "C22_direct_indirect"
   ],
   "note": ""
  },
  {
   "property": "C23",
   "status": "proved",
   "theorems": [
    "C23_connected_edges"
   ],
   "note": ""
  },
  {
   "property": "C24",
   "status": "proved",
   "theorems": [
    "C24_trails_sequences",
    "C24_after_build"
   ],
   "note": ""
  },
  {
   "property": "C25",
   "status": "proved",
   "theorems": [
    "C25_node_equilibrium"
   ],
   "note": "Over the real numbers (exact arithmetic), like every statement about forces and positions below."
  },
  {
   "property": "C26",
   "status": "proved",
   "theorems": [
    "C26_opposite_forces",
    "C26_pulls"
   ],
   "note": ""
  },
  {
   "property": "C27",
   "status": "proved",
   "theorems": [
    "C27_plane_intersection"
   ],
   "note": ""
  },
  {
   "property": "C28",
   "status": "proved",
   "theorems": [
    "C28_planes"
   ],
   "note": "Over the real numbers, for edges that carry a non-zero force (the position of the far end of an edge without force is the near end)."
  },
  {
   "property": "C29",
   "status": "proved",
   "theorems": [
    "C29_lengths_kept"
   ],
   "note": ""
  },
  {
   "property": "C30",
   "status": "partial",
   "theorems": [
    "C30_state_partial",
    "C30_refuted"
   ],
   "note": "REFUTED: a plane behind the node turns a tension edge into a compression edge (C30_refuted). C30_state_partial gives the exact state: the input sign is kept when the plane is not met or is met at the node itself, and otherwise it is decided by the side of the plane and the pull."
  },
  {
   "property": "C31",
   "status": "proved",
   "theorems": [
    "C31_direct_equilibrium"
   ],
   "note": ""
  },
  {
   "property": "C32",
   "status": "proved",
   "theorems": [
    "C32_residual_bound",
    "C32_at_rest"
   ],
   "note": "Over the real numbers; C32_at_rest is the exact case."
  },
  {
   "property": "C33",
   "status": "proved",
   "theorems": [
    "C33_force_balance",
    "C33_direct"
   ],
   "note": "C33_force_balance for every form in exact equilibrium, C33_direct for the forms of direct topologies."
  },
  {
   "property": "C34",
   "status": "proved",
   "theorems": [
    "C34_moment_balance",
    "C34_direct"
   ],
   "note": "C34_moment_balance for every form in exact equilibrium, C34_direct for the forms of direct topologies."
  },
  {
   "property": "C35",
   "status": "proved",
   "theorems": [
    "C35_one_iteration",
    "C35_success"
   ],
   "note": ""
  },
  {
   "property": "C36",
   "status": "proved",
   "theorems": [
    "C36_success",
    "C36_failure",
    "C36_no_iterations",
    "C36_single_iteration",
    "C36_displacement",
    "C36_no_convergence"
   ],
   "note": "C36_displacement and C36_no_convergence over the real numbers; C36_success, C36_failure, C36_no_iterations and C36_single_iteration for any scalar type, including floats, where a displacement that is not a number passes both comparisons (see C65)."
  },
  {
   "property": "C37",
   "status": "proved",
   "theorems": [
    "C37_frame",
    "C37_inputs"
   ],
   "note": "That the topology itself is not modified is built into the model (static_equilibrium is a function of the topology that returns a new diagram): the code works on a copy."
  },
  {
   "property": "C38",
   "status": "proved",
   "theorems": [
    "C38_kmax_beyond",
    "C38_negative"
   ],
   "note": ""
  },
  {
   "property": "C39",
   "status": "partial",
   "theorems": [
    "C39_kmax_partial",
    "C39_refuted"
   ],
   "note": "REFUTED: nodes on sequences two or more beyond kmax are still moved (C39_refuted). Holds for sequence kmax + 1, and the nodes up to kmax are where the full computation has them on direct topologies (C39_kmax_partial)."
  },
  {
   "property": "C40",
   "status": "proved",
   "theorems": [
    "C40_lengths",
    "C40_signed_lengths",
    "C40_lengths_float"
   ],
   "note": ""
  },
  {
   "property": "C41",
   "status": "proved",
   "theorems": [
    "C41_iteration",
    "C41_numpy_succeeds",
    "C41_numpy_displacement",
    "C41_direct",
    "C41_zero_length_differs",
    "C41_threshold_differs"
   ],
   "note": "Over the real numbers. Without the hypotheses the programs differ: a deviation edge without length gives NaN coordinates (C41_zero_length_differs), and the displacement is measured differently (C41_threshold_differs)."
  },
  {
   "property": "C42",
   "status": "proved",
   "theorems": [
    "C42_translation",
    "C42_translated",
    "C42_moved",
    "C42_image"
   ],
   "note": "Over the real numbers. C42_moved is the common generalisation of C42, C43, C62 and C63; C42_image and C42_translated say what the moved topology is in terms of public queries."
  },
  {
   "property": "C43",
   "status": "proved",
   "theorems": [
    "C43_reloaded_form",
    "C43_reloaded"
   ],
   "note": "Over the real numbers."
  },
  {
   "property": "C44",
   "status": "proved",
   "theorems": [
    "C44_bounds",
    "C44_solver"
   ],
   "note": "Over the real numbers. C44_solver: the solver is only ever called with a start point inside its bounds."
  },
  {
   "property": "C45",
   "status": "proved",
   "theorems": [
    "C45_frame",
    "C45_objective_frame",
    "C45_round_trip",
    "C45_idle"
   ],
   "note": "For any number type. Keys must be in range (they always are unless a parameter was removed or replaced, see C52)."
  },
  {
   "property": "C46",
   "status": "proved",
   "theorems": [
    "C46_objective",
    "C46_solver",
    "C46_value"
   ],
   "note": "For any number type, any history of evaluations (also failing ones) and any solver that passes arrays of the right size."
  },
  {
   "property": "C47",
   "status": "proved",
   "theorems": [
    "C47_forward_differences",
    "C47_component",
    "C47_objective_gradient",
    "C47_affine"
   ],
   "note": "For any number type; exactness for affine functions over the real numbers."
  },
  {
   "property": "C48",
   "status": "proved",
   "theorems": [
    "C48_penalty",
    "C48_no_deviation",
    "C48_total",
    "C48_zero"
   ],
   "note": "Over the real numbers, for all eight constraint classes with data on nodes and edges. TrimeshConstraint is not modelled. Planes need a normal; direction constraints need an edge and a target of non-zero length."
  },
  {
   "property": "C49",
   "status": "proved",
   "theorems": [
    "C49_line",
    "C49_plane"
   ],
   "note": "Over the real numbers; the line may even be degenerate."
  },
  {
   "property": "C50",
   "status": "proved",
   "theorems": [
    "C50_polyline",
    "C50_penalty"
   ],
   "note": "Over the real numbers, for polylines of two or more points."
  },
  {
   "property": "C51",
   "status": "proved",
   "theorems": [
    "C51_parallel",
    "C51_scaled"
   ],
   "note": "Over the real numbers, for edges and target vectors of non-zero length."
  },
  {
   "property": "C52",
   "status": "partial",
   "theorems": [
    "C52_variables_partial",
    "C52_added_partial",
    "C52_refuted",
    "C52_replaced_refuted"
   ],
   "note": "REFUTED: removing a parameter leaves a gap in the numbering, and reading the variables raises IndexError (C52_refuted); replacing one by another has the same effect (C52_replaced_refuted). C52_variables_partial: the variables are produced exactly when the keys have no gap, and the optimizer raises IndexError otherwise."
  },
  {
   "property": "C53",
   "status": "proved",
   "theorems": [
    "C53_empty_problem",
    "C53_unknown_gradient",
    "C53_unknown_algorithm"
   ],
   "note": "For any number type and any solver. The KeyError of an unknown algorithm comes after the parameters are read, so it needs them to be readable."
  },
  {
   "property": "C54",
   "status": "partial",
   "theorems": [
    "C54_last_point_partial",
    "C54_roundoff",
    "C54_refuted",
    "C54_settings_refuted"
   ],
   "note": "REFUTED: the form returned is the form at the last point the solver evaluated, not at the reported optimum (C54_refuted), and with the default tmax and eta, not the caller's (C54_settings_refuted). C54_last_point_partial is what holds for every solver; C54_roundoff is the case in which the claim about x_opt holds."
  },
  {
   "property": "C55",
   "status": "partial",
   "theorems": [
    "C55_key_text",
    "C55_key_distinct",
    "C55_parameter",
    "C55_parameter_fields",
    "C55_constraint_partial",
    "C55_plain_target",
    "C55_goals",
    "C55_goal_fields",
    "C55_finite",
    "C55_refuted"
   ],
   "note": "REFUTED: a constraint whose target is a plain list or tuple of coordinates cannot be written, and an infinite target is written but cannot be read (C55_refuted). Everything else survives, directly or as JSON text: C55_parameter, C55_constraint_partial. Python's float() of the text of a float, and compas' to_data/from_data of geometry objects, are taken to be inverse."
  },
  {
   "property": "C56",
   "status": "proved",
   "theorems": [
    "C56_unique",
    "C56_no_loss",
    "C56_diagram"
   ],
   "note": "C56_unique and C56_no_loss are about one polyedge, C56_diagram about the diagram. A polyedge with supports at both ends and at its second vertex is left out on purpose by the code, and C56_no_loss says so."
  },
  {
   "property": "C57",
   "status": "partial",
   "theorems": [
    "C57_range",
    "C57_order",
    "C57_same",
    "C57_default",
    "C57_ignored",
    "C57_no_edges",
    "C57_empty",
    "C57_plotter_refuted"
   ],
   "note": "C57_range and C57_order: over the real numbers, for the viewer always and for the plotter if no width was set before. REFUTED for the plotter otherwise: the pair is ignored (C57_plotter_refuted, C57_ignored), and on a diagram without edges assigning a width raises TypeError (C57_no_edges). That the setter inherited from compas_plotters ignores a pair is an assumption about that library."
  },
  {
   "property": "C58",
   "status": "partial",
   "theorems": [
    "C58_origins_partial",
    "C58_refuted"
   ],
   "note": "REFUTED: the lookup table of the form is that of the topology (C58_refuted). Holds for origins, which do not move (C58_origins_partial)."
  },
  {
   "property": "C59",
   "status": "partial",
   "theorems": [
    "C59_supports_kept_partial",
    "C59_refuted"
   ],
   "note": "REFUTED: a trail with supports at both ends loses one of them silently (C59_refuted). Holds for well-posed chains: C59_supports_kept_partial."
  },
  {
   "property": "C60",
   "status": "partial",
   "theorems": [
    "C60_failing_add_edge_partial",
    "C60_refuted"
   ],
   "note": "REFUTED: an add_edge that raises may leave a new node behind (C60_refuted). What it can leave behind is exactly bounded by C60_failing_add_edge_partial."
  },
  {
   "property": "C61",
   "status": "proved",
   "theorems": [
    "C61_built_ready",
    "C61_built_auxiliary_ready",
    "C61_ready_kept"
   ],
   "note": ""
  },
  {
   "property": "C62",
   "status": "proved",
   "theorems": [
    "C62_rotated_form",
    "C62_rotated"
   ],
   "note": "Over the real numbers."
  },
  {
   "property": "C63",
   "status": "proved",
   "theorems": [
    "C63_enlarged_form",
    "C63_enlarged"
   ],
   "note": "Over the real numbers."
  },
  {
   "property": "C64",
   "status": "proved",
   "theorems": [
    "C64_flat"
   ],
   "note": "Over the real numbers."
  },
  {
   "property": "C65",
   "status": "partial",
   "theorems": [
    "C65_exhausted_partial",
    "C65_refuted"
   ],
   "note": "REFUTED: two finite loads whose sum overflows give a form with a NaN coordinate, returned as converged (C65_refuted). C65_exhausted_partial: this happens only when all tmax iterations were used up and the last displacement is NaN too."
  },
  {
   "property": "C66",
   "status": "proved",
   "theorems": [
    "C66_origins_only"
   ],
   "note": ""
  },
  {
   "property": "C67",
   "status": "proved",
   "theorems": [
    "C67_nodes",
    "C67_loaded",
    "C67_supported",
    "C67_edges",
    "C67_auxiliary",
    "C67_loaded_length"
   ],
   "note": "For any number type; the length of the load vector also over the real numbers."
  },
  {
   "property": "C68",
   "status": "proved",
   "theorems": [
    "C68_held",
    "C68_raises",
    "C68_obtained"
   ],
   "note": "For any number type."
  },
  {
   "property": "C69",
   "status": "proved",
   "theorems": [
    "C69_problem",
    "C69_unique",
    "C69_accepted",
    "C69_results",
    "C69_autodiff",
    "C69_proxy"
   ],
   "note": "For any number type and any solver. The reported gradient is covered for finite differences (C69_results) and for automatic differentiation (C69_autodiff), which is external: the theorem says that what it returns is what the solver gets and what is reported. The documentation calls kappa a threshold for the norm of the gradient; the code passes it to NLopt as ftol_abs, and the theorems say so."
  },
  {
   "property": "C70",
   "status": "partial",
   "theorems": [
    "C70_loads",
    "C70_reactions",
    "C70_outside",
    "C70_refuted"
   ],
   "note": "Over the real numbers; viewer, plotter and Grasshopper. REFUTED in one case: the plotter looks at the edges of all nodes, so a node without edges anywhere keeps it from drawing any reaction (C70_refuted). C70_reactions therefore asks that the nodes have edges."
  },
  {
   "property": "C71",
   "status": "partial",
   "theorems": [
    "C71_palette",
    "C71_plotter_form",
    "C71_viewer_form",
    "C71_state",
    "C71_one_look",
    "C71_topology",
    "C71_nodes",
    "C71_lines",
    "C71_crosses",
    "C71_refuted"
   ],
   "note": "Proved for each artist; REFUTED: the viewer and the plotter disagree on an edge without force, which the viewer draws as one in tension (C71_refuted). The drawing libraries are external: what is modelled is the colors and groups handed to them."
  },
  {
   "property": "C72",
   "status": "partial",
   "theorems": [
    "C72_drawn",
    "C72_kinds",
    "C72_supports_partial",
    "C72_trails",
    "C72_refuted"
   ],
   "note": "REFUTED for supports: a selection without supports, or an empty one, draws all nodes (C72_refuted); C72_supports_partial covers the selections with a support. Proved for nodes, edges, origins, trail and deviation edges and trails."
  },
  {
   "property": "C73",
   "status": "partial",
   "theorems": [
    "C73_partial",
    "C73_refuted",
    "C73_objects",
    "C73_new"
   ],
   "note": "REFUTED: assigning show_nodes changes the visibility of the edges, and show_nodes always reads None (C73_refuted). C73_partial, C73_objects and C73_new: what holds, also after any sequence of uses of an object."
  },
  {
   "property": "C74",
   "status": "partial",
   "theorems": [
    "C74_renamed_partial",
    "C74_refuted"
   ],
   "note": "Over the real numbers. REFUTED with indirect deviation edges: the nodes of a sequence are moved in the order of their trails, so an indirect edge sees its other end before or after it was moved depending on which trail was built first (C74_refuted). C74_renamed_partial: topologies without indirect deviation edges. Missing: a bound on the difference when indirect edges converge."
  },
  {
   "property": "C75",
   "status": "proved",
   "theorems": [
    "C75_upstream",
    "C75_later",
    "C75_matched"
   ],
   "note": "C75_upstream and C75_later for any number type, C75_matched over the real numbers (sums in another order). Upstream sets and matched parts need direct deviation edges at the nodes concerned, as the property says; elsewhere the structure may have indirect ones."
  },
  {
   "property": "C76",
   "status": "partial",
   "theorems": [
    "C76_more_passes_partial",
    "C76_looser",
    "C76_refuted"
   ],
   "note": "C76_more_passes_partial for any number type, C76_looser over the real numbers. REFUTED in one case: if the last pass moved the form by exactly eta, the form is returned when passes run out but iteration goes on, and may fail, when they do not (C76_refuted)."
  },
  {
   "property": "C77",
   "status": "proved",
   "theorems": [
    "C77_assembly",
    "C77_ready",
    "C77_rejects",
    "C77_trail_edge",
    "C77_deviation_edge",
    "C77_load",
    "C77_support"
   ],
   "note": "Lines, loads and supports as the other components make them; Rhino geometry is converted before (not modelled). C77_ready: what is returned is ready for form finding if the trail edges form chains."
  },
  {
   "property": "C78",
   "status": "partial",
   "theorems": [
    "C78_move_partial",
    "C78_shift",
    "C78_refuted"
   ],
   "note": "REFUTED: after moving an origin the search component finds it at its old point and not at its new one, as the lookup is not updated (C78_refuted). C78_move_partial: everything else about moving; C78_shift is full. That the given diagram is not changed holds by construction (the component copies it)."
  },
  {
   "property": "C79",
   "status": "partial",
   "theorems": [
    "C79_node",
    "C79_edge_partial",
    "C79_refuted"
   ],
   "note": "REFUTED: a line drawn against the direction of an edge finds a key that is not an edge, and so does a line between two nodes that no edge joins (C79_refuted). C79_node is full; C79_edge_partial: lines along the edge."
  },
  {
   "property": "C80",
   "status": "partial",
   "theorems": [
    "C80_form_finding_partial",
    "C80_weight_partial",
    "C80_constrained_partial",
    "C80_refuted"
   ],
   "note": "REFUTED: `x or default` replaces a given zero by the default, so that a weight of 0 becomes 1 and tmax = 0 becomes 100 (C80_refuted). The partial theorems cover all values that are not zero (not empty)."
  },
  {
   "property": "C81",
   "status": "partial",
   "theorems": [
    "C81_counts",
    "C81_deviations",
    "C81_ready",
    "C81_exists_partial",
    "C81_refuted"
   ],
   "note": "C81_counts, C81_deviations and C81_ready are full. REFUTED for node_exists: true for every integer, whether there is such a node or not (C81_refuted); C81_exists_partial: on coordinates."
  },
  {
   "property": "C82",
   "status": "proved",
   "theorems": [
    "C82_edges",
    "C82_reactions"
   ],
   "note": "The conversion of the vectors to Rhino geometry is not modelled."
  },
  {
   "property": "C83",
   "status": "partial",
   "theorems": [
    "C83_topology",
    "C83_assembled",
    "C83_form",
    "C83_refuted"
   ],
   "note": "REFUTED: a topology that was assembled from trail edges without supports cannot be disassembled, TypeError (C83_refuted), as it has no sequences. C83_topology: all topologies ready for form finding; C83_assembled: what is drawn as chains is disassembled into these chains; C83_form is full."
  },
  {
   "property": "C84",
   "status": "partial",
   "theorems": [
    "C84_form_partial",
    "C84_topology_partial",
    "C84_refuted"
   ],
   "note": "REFUTED: if no selected node is a support all nodes are drawn as supports, and a scale of 0 is a scale of 1 (C84_refuted). The partial theorems cover the selections with a support and the scales and magnitudes that are not zero. Colours and Rhino geometry are not modelled."
  },
  {
   "property": "C85",
   "status": "proved",
   "theorems": [
    "C85_constraints",
    "C85_direction",
    "C85_none",
    "C85_parameters"
   ],
   "note": "Over the reals. Targets in the geometry of COMPAS; the conversion from Rhino is not modelled. A weight of zero: see C80_refuted."
  },
  {
   "property": "C86",
   "status": "partial",
   "theorems": [
    "C86_topology_partial",
    "C86_rebuilt_partial",
    "C86_unbuilt",
    "C86_form",
    "C86_memory",
    "C86_lost",
    "C86_refuted"
   ],
   "note": "REFUTED as stated: the trails of a diagram read from a file have their keys as text, so trail(key) and shift_trail(key, k) raise KeyError (C86_lost, C86_refuted). Proved: contents, every call that does not name a trail, and all forms are the same (C86_topology_partial); once build_trails has been called again everything is (C86_rebuilt_partial); diagrams without trails and form diagrams come back unchanged (C86_unbuilt, C86_form); C86_memory shows that the same objects not sent through a file behave as the diagrams of the other properties. The text format itself is compas and Python's json, see DESIGN.md."
  },
  {
   "property": "C87",
   "status": "partial",
   "theorems": [
    "C87_bounds_partial",
    "C87_reported_partial",
    "C87_repeated_partial",
    "C87_refuted",
    "C87_twice_refuted"
   ],
   "note": "REFUTED as stated: the last of two parameters of the same quantity wins (C87_refuted), and every run takes the bounds from the values the last run left (C87_twice_refuted). Proved over the real numbers: with one parameter per quantity the bounds are kept in every run, whatever it returns or raises (C87_bounds_partial), the optimum reported lies within them (C87_reported_partial), and n runs stay within n times the bounds (C87_repeated_partial)."
  },
  {
   "property": "C88",
   "status": "partial",
   "theorems": [
    "C88_symmetric_partial",
    "C88_axis_partial",
    "C88_refuted"
   ],
   "note": "Over the real numbers. REFUTED with indirect deviation edges: the trails of a sequence are advanced one after the other, and an indirect edge sees the new position of a node on an earlier trail but the old one of its mirror image on a later trail, so a node on the plane of symmetry leaves it (C88_refuted, after two passes). C88_symmetric_partial, C88_axis_partial: topologies without indirect deviation edges, any rotation or mirroring with a translation. Missing: a bound on the asymmetry when the passes converge."
  },
  {
   "property": "C89",
   "status": "partial",
   "theorems": [
    "C89_same",
    "C89_only",
    "C89_silence",
    "C89_told_partial",
    "C89_refuted"
   ],
   "note": "C89_same, C89_only: any number type. C89_silence, C89_told_partial: over the real numbers. REFUTED with indirect deviation edges: a warning of an early pass, in which these edges are left out, is printed although the form that is returned has nothing wrong (C89_refuted). That silence is reliable is proved for all topologies (C89_silence); that warnings are, for those without indirect deviation edges (C89_told_partial). static_equilibrium_numpy never warns."
  },
  {
   "property": "C90",
   "status": "partial",
   "theorems": [
    "C90_calls_partial",
    "C90_refuted"
   ],
   "note": "Any number type. REFUTED: the callback is called once for every trail edge in every iteration, and the number printed is one less than the iterations made (C90_refuted). C90_calls_partial says exactly how often it is called, and what is printed, for every run, also one that does not converge."
  },
  {
   "property": "C91",
   "status": "partial",
   "theorems": [
    "C91_value",
    "C91_small",
    "C91_zero",
    "C91_solved_partial",
    "C91_refuted"
   ],
   "note": "Over the real numbers. C91_value, C91_small and C91_zero: for every reachable topology, about the form static_equilibrium_numpy finds with the variables and settings of the evaluation. REFUTED for the form solve returns: it is the form of the last point evaluated, so a reported penalty of zero can come with a form that misses a target (C91_refuted). C91_solved_partial: on topologies without indirect deviation edges whose form has no coincident ends of deviation edges and no trail edge without force, the returned form meets the constraints exactly when the objective at the last evaluated point is zero. Missing: how far the forms of the two programs are apart on indirect topologies."
  },
  {
   "property": "C92",
   "status": "proved",
   "theorems": [
    "C92_by_hand",
    "C92_evaluation",
    "C92_still_built"
   ],
   "note": "Any number type, any solver (also one that passes arrays of the wrong size), any end of the run. C92_by_hand gives the calls."
  },
  {
   "property": "C93",
   "status": "partial",
   "theorems": [
    "C93_solution_partial",
    "C93_objects",
    "C93_results",
    "C93_stuck",
    "C93_lost",
    "C93_refuted"
   ],
   "note": "Any number type, any solver, any function as automatic differentiation that only calls what it is given. REFUTED: targets given as plain coordinates (as in the examples) raise when sent, and the topology that comes back cannot be asked for a trail by its key (C93_refuted). C93_solution_partial: with compas objects or finite numbers as targets everything else is the same, also the exception. C93_stuck: with any other target the call raises. C93_results ties the numbers to solve."
  },
  {
   "property": "C94",
   "status": "proved",
   "theorems": [
    "C94_at_most_one",
    "C94_form",
    "C94_only"
   ],
   "note": ""
  },
  {
   "property": "C95",
   "status": "proved",
   "theorems": [
    "C95_final",
    "C95_rest"
   ],
   "note": ""
  },
  {
   "property": "C96",
   "status": "partial",
   "theorems": [
    "C96_one",
    "C96_topology",
    "C96_form",
    "C96_left",
    "C96_viewer_partial",
    "C96_given",
    "C96_refuted",
    "C96_agree"
   ],
   "note": "Any number type; C96_agree over the reals. Texts are lists of their pieces, numbers stand for themselves with two decimals, and the drawing libraries are external. REFUTED: asking the viewer for the type of nodes raises AttributeError, and so does asking it for the state of the edges of a form; a dictionary given to a plotter raises TypeError (C96_refuted). \"key\" is not known to the plotters, which leave the default of the library in place (C96_left). C96_viewer_partial leaves out what is refuted."
  },
  {
   "property": "C97",
   "status": "proved",
   "theorems": [
    "C97_section",
    "C97_error",
    "C97_apart",
    "C97_single",
    "C97_levels"
   ],
   "note": "Over the real numbers. C97_section for any diagram whose nodes in the part are in equilibrium (by C31 all forms without indirect deviation edges, by C95 all forms at rest); C97_error bounds the sum for other forms."
  },
  {
   "property": "C98",
   "status": "proved",
   "theorems": [
    "C98_virtual_work",
    "C98_maxwell",
    "C98_rigid"
   ],
   "note": "Over the real numbers, for any diagram in equilibrium."
  },
  {
   "property": "C99",
   "status": "partial",
   "theorems": [
    "C99_partial",
    "C99_stays",
    "C99_new",
    "C99_refuted"
   ],
   "note": "Any number type. REFUTED: zero is replaced by the default, so a load that is not below a tolerance of zero is not drawn (C99_refuted). C99_partial is for all other numbers; C99_stays and C99_new have no exception but this."
  },
  {
   "property": "C100",
   "status": "proved",
   "theorems": [
    "C100_made"
   ],
   "note": "Over the real numbers; produced diagrams, and for a topology the kinds of its edges. The compas cylinder is a center, an axis, a radius and a height; what the viewer makes of the mesh is external."
  },
  {
   "property": "C101",
   "status": "partial",
   "theorems": [
    "C101_nodes",
    "C101_assigned",
    "C101_lines",
    "C101_edges_partial",
    "C101_edges_refuted",
    "C101_refuted"
   ],
   "note": "Nodes and loads for any number type, edges over the reals. REFUTED: once edges were drawn or grouped, a selection without one of them raises KeyError and one with more of them is drawn without these (C101_edges_refuted); once nodes were drawn, they stay in the places of the old diagram when another is assigned (C101_refuted). C101_nodes, C101_lines, C101_assigned and C101_edges_partial say when drawings are right: nodes and lines of the same diagram, loads and reactions always, cylinders if none were drawn before."
  },
  {
   "property": "C102",
   "status": "proved",
   "theorems": [
    "C102_continuous",
    "C102_numpy",
    "C102_differentiable",
    "C102_jump_unloaded",
    "C102_jump_tolerance"
   ],
   "note": ""
  },
  {
   "property": "C103",
   "status": "proved",
   "theorems": [
    "C103_gradient",
    "C103_jump",
    "C103_kink"
   ],
   "note": ""
  },
  {
   "property": "C104",
   "status": "partial",
   "theorems": [
    "C104_same",
    "C104_report",
    "C104_true",
    "C104_optimizer",
    "C104_status_partial",
    "C104_topology",
    "C104_form",
    "C104_edge",
    "C104_refuted"
   ],
   "note": "Any number type; C104_edge over the reals. Rounding of the numbers printed and running times are not modelled. REFUTED for the text of an optimizer: after a run that failed it shows the status of an earlier run (C104_refuted); C104_status_partial: runs that return results. Everything else is full."
  },
  {
   "property": "C105",
   "status": "partial",
   "theorems": [
    "C105_lookup_partial",
    "C105_still_partial",
    "C105_refuted",
    "C105_twice_refuted"
   ],
   "note": "REFUTED: the optimizer writes coordinates without updating the lookup, so a moved origin is not found at its new location but still at its old one (C105_refuted), and an edge drawn from there gets another node in the same place (C105_twice_refuted). Proved for any number type, solver and end of the run: every location finds what it found before (C105_lookup_partial), and nodes whose coordinates are no parameters stay and are still found (C105_still_partial)."
  }
 ]
}