(** * Properties of form finding (C25 - C40, C42, C43, C58, C61 - C66)

    Generated by tools/gen_props.py from the lemmas of EqThms.v, ReadyThms.v,
    CoordsThms.v, StaticsThms.v, TransformThms.v, FloatThms.v and WitnessEq.v.  The vocabulary is
    in SpecTopology.v, SpecEquilibrium.v, SpecStatics.v and SpecTransform.v. *)

From Coq Require Import String List ZArith Bool Lia Permutation Floats Reals Lra.
From Verif Require Import Py Num Diagram Topology Equilibrium History Fixtures SpecDiagram SpecTopology
  SpecEquilibrium SpecStatics SpecTransform RVec EqThms ReadyThms CoordsThms StaticsThms TransformThms
  FloatThms Witness WitnessEq.
Import ListNotations.
Open Scope Z_scope.

(** ** For any scalar type *)

Section Generic.
  Context {T : Type} `{NumOps T}.
  Implicit Types (d : diagram T).

  (** Without indirect deviation edges the form does not depend on the number of
      iterations and on the threshold. *)
  Theorem C35_one_iteration : forall d kmax tmax eta eta' verbose form, reachable d -> ready d -> direct_only d ->
    static_equilibrium d kmax tmax eta verbose = Ok form ->
    static_equilibrium d kmax 1 eta' false = Ok form.
  Proof. exact c35_one_iteration. Qed.
  (** Success means that the last two iterations are within the threshold, or that
      the allowed iterations are used up at a displacement not above it. *)
  Theorem C36_success : forall d kmax tmax eta verbose form, reachable d -> 2 <= tmax ->
    static_equilibrium d kmax tmax eta verbose = Ok form ->
    exists ts t x, trails_sequences d = Ok ts /\ (1 <= t)%nat /\ Z.of_nat t < tmax
      /\ moves d ts kmax t x
      /\ (nltb x eta = true \/ Z.of_nat t = tmax - 1 /\ nltb eta x = false)
      /\ (forall s y, (1 <= s < t)%nat -> moves d ts kmax s y -> nltb y eta = false)
      /\ positions_after d ts kmax (S t) form.
  Proof. exact c36_success. Qed.
  (** On a ready topology the only other outcome is a ValueError, and then no
      iteration came within the threshold and the last one was above it. *)
  Theorem C36_failure : forall d kmax tmax eta verbose e, reachable d -> ready d -> kmax_ok kmax -> 2 <= tmax ->
    static_equilibrium d kmax tmax eta verbose = Err e ->
    e = ValueError "Over iters" /\
    exists ts x, trails_sequences d = Ok ts /\
      ((moves d ts kmax (Z.to_nat tmax - 1) x /\ nltb eta x = true
        /\ forall s y, (1 <= s)%nat -> Z.of_nat s < tmax -> moves d ts kmax s y -> nltb y eta = false)
       \/ (nltb eta x = true /\ nltb x eta = true)).
  Proof. exact c36_failure. Qed.
  (** The other arguments. *)
  Theorem C36_no_iterations : forall d kmax tmax eta verbose, reachable d -> ready d -> kmax_ok kmax -> tmax <= 0 ->
    static_equilibrium d kmax tmax eta verbose = Err UnboundLocalError.
  Proof. exact c36_no_iterations. Qed.
  (** A single iteration is returned unchecked, but raises if verbose. *)
  Theorem C36_single_iteration : forall d kmax eta, reachable d -> ready d -> kmax_ok kmax ->
    (exists form, static_equilibrium d kmax 1 eta false = Ok form)
    /\ static_equilibrium d kmax 1 eta true = Err UnboundLocalError.
  Proof. exact c36_single_iteration. Qed.
  (** The form has the nodes, edges, adjacency, supports, loads, types and planes of
      the topology. *)
  Theorem C37_frame : forall d kmax tmax eta verbose form, reachable d ->
    static_equilibrium d kmax tmax eta verbose = Ok form ->
    nodes form = nodes d /\ edges form = edges d
    /\ (forall n, neighbors form n = neighbors d n)
    /\ (forall n, is_node_support form n = is_node_support d n)
    /\ (forall n, node_load form n = node_load d n)
    /\ (forall n, node_sequence form n = node_sequence d n)
    /\ (forall e, is_trail_edge form e = is_trail_edge d e)
    /\ (forall e, is_deviation_edge form e = is_deviation_edge d e)
    /\ (forall e, edge_plane form e = edge_plane d e)
    /\ (forall r, node_key form r = node_key d r).
  Proof. exact c37_frame. Qed.
  (** On a ready topology the first node of every trail stays where it is, forces of
      deviation edges are the prescribed ones and only supports get reactions. *)
  Theorem C37_inputs : forall d tmax eta verbose form, reachable d -> ready d ->
    static_equilibrium d None tmax eta verbose = Ok form ->
    (forall key tr, In (key, tr) (trails d) -> node_coordinates form key = node_coordinates d key)
    /\ (forall e, In e (deviation_edges d) -> edge_force form e = edge_force d e)
    /\ (forall n, In n (nodes d) -> is_node_support d n = Ok false -> reaction_force form n = Ok vzero).
  Proof. exact c37_inputs. Qed.
  (** A kmax at or beyond the last sequence has no effect. *)
  Theorem C38_kmax_beyond : forall d km kl tmax eta verbose, reachable d -> ready d ->
    sequence_last d = Ok kl -> kl <= km ->
    static_equilibrium d (Some km) tmax eta verbose = static_equilibrium d None tmax eta verbose.
  Proof. exact c38_kmax_beyond. Qed.
  (** A negative kmax is rejected. *)
  Theorem C38_negative : forall d km tmax eta verbose, reachable d -> ready d -> km < 0 ->
    static_equilibrium d (Some km) tmax eta verbose = Err (AssertionError "Kmax must be a non-negative number!").
  Proof. exact c38_negative. Qed.
  (** Nodes on the sequence after kmax keep their position, and on a direct topology
      the positions up to kmax are those of the unrestricted computation. *)
  Theorem C39_kmax_partial : forall d km tmax tmax' eta eta' verbose verbose' form full,
    reachable d -> ready d ->
    static_equilibrium d (Some km) tmax eta verbose = Ok form ->
    static_equilibrium d None tmax' eta' verbose' = Ok full ->
    (forall n, node_sequence d n = Ok (km + 1) -> node_coordinates form n = node_coordinates d n)
    /\ (direct_only d -> forall n k, node_sequence d n = Ok k -> k <= km ->
          node_coordinates form n = node_coordinates full n).
  Proof. exact c39_kmax_partial. Qed.
  (** Edge lengths of the form are measured on its geometry and signed by the force. *)
  Theorem C40_lengths : forall d kmax tmax eta verbose form e, reachable d ->
    static_equilibrium d kmax tmax eta verbose = Ok form -> In e (edges form) ->
    exists pu pv f, node_coordinates form (fst e) = Ok pu /\ node_coordinates form (snd e) = Ok pv
      /\ edge_force form e = Ok f
      /\ edge_length_2 form e = Ok (ncopysign (distance_point_point pu pv) f).
  Proof. exact c40_lengths. Qed.
  (** Lookup by coordinates answers as in the topology, so the first nodes of trails,
      which stay in place, are still found. *)
  Theorem C58_origins_partial : forall d tmax eta verbose form, reachable d -> ready d ->
    static_equilibrium d None tmax eta verbose = Ok form ->
    (forall p, node_key form (RXyz p) = node_key d (RXyz p))
    /\ forall key tr p, In (key, tr) (trails d) -> node_coordinates d key = Ok p -> node_key d (RXyz p) = Some key ->
         node_coordinates form key = Ok p /\ node_key form (RXyz p) = Some key.
  Proof. exact c58_origins_partial. Qed.
  (** A topology whose trail edges form chains that cover all nodes is ready for
      form finding after build_trails. *)
  Theorem C61_built_ready : forall d ord P, reachable d -> same_set_order ord ->
    chains d P -> covers d P -> P <> [] ->
    exists d', build_trails ord false d = (d', Ok tt) /\ ready d'.
  Proof. exact c61_built_ready. Qed.
  (** Any topology whose trail edges form chains, whether or not they cover all
      nodes, is ready for form finding after build_trails(True). *)
  Theorem C61_built_auxiliary_ready : forall d ord P, reachable d -> same_set_order ord ->
    chains d P -> nodes d <> [] ->
    exists d', build_trails ord true d = (d', Ok tt) /\ ready d'.
  Proof. exact c61_built_auxiliary_ready. Qed.
  (** Changing coordinates, loads, lengths, forces and settings, and shifting trails
      to non-negative sequences, keep a topology ready, whether or not a call raises. *)
  Theorem C61_ready_kept : forall d o, reachable d -> ready d -> soft d o -> ready (fst (call o d)).
  Proof. exact c61_ready_kept. Qed.
  (** C66: the coordinates a topology gives to the nodes that are not first on a trail have
      no effect on form finding: two topologies that differ in them at most have the same
      outcome, the same error or the same form. *)
  Theorem C66_origins_only : forall d d' tmax eta verbose, reachable d -> ready d -> reachable d' ->
    same_but_coordinates d d' ->
    (forall key tr, In (key, tr) (trails d) -> node_coordinates d' key = node_coordinates d key) ->
    match static_equilibrium d None tmax eta verbose, static_equilibrium d' None tmax eta verbose with
    | Ok form, Ok form' => same_but_coordinates form form'
        /\ forall n, node_coordinates form' n = node_coordinates form n
    | Err e, Err e' => e' = e
    | _, _ => False
    end.
  Proof. exact c66_origins_only. Qed.
End Generic.
Print Assumptions C35_one_iteration.
Print Assumptions C36_success.
Print Assumptions C36_failure.
Print Assumptions C36_no_iterations.
Print Assumptions C36_single_iteration.
Print Assumptions C37_frame.
Print Assumptions C37_inputs.
Print Assumptions C38_kmax_beyond.
Print Assumptions C38_negative.
Print Assumptions C39_kmax_partial.
Print Assumptions C40_lengths.
Print Assumptions C58_origins_partial.
Print Assumptions C61_built_ready.
Print Assumptions C61_built_auxiliary_ready.
Print Assumptions C61_ready_kept.
Print Assumptions C66_origins_only.

(** ** Over the real numbers *)

(** node_equilibrium returns the only vector that balances the node. *)
Theorem C25_node_equilibrium : forall d n (t_in : rvec) xyz indirect r,
  node_equilibrium d n t_in xyz indirect = Ok r ->
  exists q direct indirects, node_load d n = Ok q
    /\ connected_direct_deviation_edges d n = Ok direct
    /\ (indirect = true -> connected_indirect_deviation_edges d n = Ok indirects)
    /\ forall r', r' = r <->
         (v0 -v t_in) +v q
           +v vsum (map (fun e => force d e *v direction (value v0 (dgetr xyz (far_end e n)) -v value v0 (dgetr xyz n)))
                        (direct ++ if indirect then indirects else []))
           +v r' = v0.
Proof. exact c25_node_equilibrium. Qed.
(** The two ends of a deviation edge receive opposite forces. *)
Theorem C26_opposite_forces : forall d u v xyz a b,
  deviation_edges_resultant_vector (T:=R) d u xyz [(u, v)] = Ok a ->
  deviation_edges_resultant_vector (T:=R) d v xyz [(u, v)] = Ok b ->
  b = v0 -v a.
Proof. exact c26_opposite_forces. Qed.
(** The pulls of any edge of a diagram on its two ends are opposite. *)
Theorem C26_pulls : forall f u v, pull f v (u, v) = v0 -v pull f u (u, v).
Proof. exact c26_pulls. Qed.
(** The intersection length is missing exactly if vector and plane are parallel up
  to the tolerance, and otherwise it is the only one that reaches the plane. *)
Theorem C27_plane_intersection : forall (p v o nrm : rvec) tol, (0 < tol)%R ->
  (trail_length_from_plane p v (o, nrm) tol = None <-> (Rabs (dot nrm (direction v)) < tol)%R)
  /\ forall l, trail_length_from_plane p v (o, nrm) tol = Some l ->
       forall l', on_plane (p +v l' *v direction v) o nrm <-> l' = l.
Proof. exact c27_plane_intersection. Qed.
(** Trail edges with a plane: the far end is on the plane, unless the edge is
  parallel to it up to 1e-6 or its near end is already on it; then the input
  length is kept. *)
Theorem C28_planes : forall d tmax eta verbose form n m e o nrm l, reachable d -> ready d -> nonzero_trails d ->
  static_equilibrium d None tmax eta verbose = Ok form ->
  follows d n m -> edge_between d n m e -> edge_plane d e = Ok (Some (o, nrm)) -> edge_length_2 d e = Ok l ->
  force form e <> 0%R ->
  let u := direction (position form m -v position form n) in
  ((Rabs (dot nrm u) < / 1000000)%R \/ on_plane (position form n) o nrm -> span form e = Rabs l)
  /\ (~ ((Rabs (dot nrm u) < / 1000000)%R \/ on_plane (position form n) o nrm) -> on_plane (position form m) o nrm).
Proof. exact c28_planes. Qed.
(** Trail edges without a plane that carry a force keep their signed length, and
  the force has its sign. *)
Theorem C29_lengths_kept : forall d tmax eta verbose form n m e l, reachable d -> ready d ->
  static_equilibrium d None tmax eta verbose = Ok form ->
  follows d n m -> edge_between d n m e -> edge_plane d e = Ok None -> edge_length_2 d e = Ok l ->
  force form e <> 0%R ->
  span form e = Rabs l /\ ((force form e < 0)%R <-> (l < 0)%R) /\ edge_length_2 form e = Ok l.
Proof. exact c29_lengths_kept. Qed.
(** A plane keeps the sign of a trail edge exactly if it is reached in the direction
  that the input length prescribes along the force that leaves the near end. *)
Theorem C30_state_partial : forall d tmax eta verbose form n m e o nrm l, reachable d -> ready d -> nonzero_trails d ->
  static_equilibrium d None tmax eta verbose = Ok form ->
  follows d n m -> edge_between d n m e -> edge_plane d e = Ok (Some (o, nrm)) -> edge_length_2 d e = Ok l ->
  force form e <> 0%R ->
  let u := direction (position form m -v position form n) in
  ((Rabs (dot nrm u) < / 1000000)%R \/ on_plane (position form n) o nrm -> (force form e < 0 <-> l < 0)%R)
  /\ (~ ((Rabs (dot nrm u) < / 1000000)%R \/ on_plane (position form n) o nrm) ->
        ((force form e < 0)%R <-> (dot nrm (o -v position form n) * dot nrm (pull form n e) < 0)%R)).
Proof. exact c30_state_partial. Qed.
(** Without indirect deviation edges the form is in static equilibrium. *)
Theorem C31_direct_equilibrium : forall d tmax eta verbose form, reachable d -> ready d -> direct_only d -> nonzero_trails d ->
  static_equilibrium d None tmax eta verbose = Ok form -> balanced form.
Proof. exact c31_direct_equilibrium. Qed.
(** The unbalanced force at a node is bounded by the threshold and the indirect
  deviation edges of the node. *)
Theorem C32_residual_bound : forall d tmax eta verbose form n, reachable d -> ready d -> nonzero_trails d -> 2 <= tmax ->
  static_equilibrium d None tmax eta verbose = Ok form -> In n (nodes form) ->
  (forall e, In e (indirect_at d n) -> (0 < span form e)%R) ->
  (magnitude (unbalanced form n)
   <= rsum (map (fun e => 2 * Rabs (force form e) * eta / span form e) (indirect_at d n)))%R.
Proof. exact c32_residual_bound. Qed.
(** If the last iteration did not move any node, the equilibrium is exact. *)
Theorem C32_at_rest : forall d tmax eta verbose form, reachable d -> ready d -> nonzero_trails d -> 2 <= tmax -> (eta <= 0)%R ->
  static_equilibrium d None tmax eta verbose = Ok form -> balanced form.
Proof. exact c32_at_rest. Qed.
(** In a form in static equilibrium, loads and reactions balance. *)
Theorem C33_force_balance : forall d kmax tmax eta verbose form, reachable d ->
  static_equilibrium d kmax tmax eta verbose = Ok form -> balanced form ->
  vsum (map (load form) (nodes form)) +v vsum (map (reaction form) (nodes form)) = v0.
Proof. exact c33_force_balance. Qed.
(** Direct topologies: the reactions at the supports balance the loads. *)
Theorem C33_direct : forall d tmax eta verbose form, reachable d -> ready d -> direct_only d -> nonzero_trails d ->
  static_equilibrium d None tmax eta verbose = Ok form ->
  vsum (map (load form) (nodes d)) +v vsum (map (reaction form) (support_nodes d)) = v0.
Proof. exact c33_direct. Qed.
(** ... and so do their moments about any point. *)
Theorem C34_moment_balance : forall d kmax tmax eta verbose form o, reachable d ->
  static_equilibrium d kmax tmax eta verbose = Ok form -> balanced form ->
  vsum (map (fun n => moment o (position form n) (load form n)) (nodes form))
  +v vsum (map (fun n => moment o (position form n) (reaction form n)) (nodes form)) = v0.
Proof. exact c34_moment_balance. Qed.
(** Direct topologies: their moments balance about any point. *)
Theorem C34_direct : forall d tmax eta verbose form o, reachable d -> ready d -> direct_only d -> nonzero_trails d ->
  static_equilibrium d None tmax eta verbose = Ok form ->
  vsum (map (fun n => moment o (position form n) (load form n)) (nodes d))
  +v vsum (map (fun n => moment o (position form n) (reaction form n)) (support_nodes d)) = v0.
Proof. exact c34_direct. Qed.
(** Direct topologies always succeed, whatever the threshold and iterations. *)
Theorem C35_success : forall d kmax tmax eta verbose, reachable d -> ready d -> direct_only d -> kmax_ok kmax ->
  1 <= tmax -> (0 <= eta)%R -> (verbose = true -> 2 <= tmax) ->
  exists form, static_equilibrium d kmax tmax eta verbose = Ok form
    /\ forall tmax' eta' verbose', 1 <= tmax' -> (0 <= eta')%R -> (verbose' = true -> 2 <= tmax') ->
         static_equilibrium d kmax tmax' eta' verbose' = Ok form.
Proof. exact c35_success. Qed.
(** Success with at least two iterations: the last iteration has moved the nodes by
  at most the threshold, in total. *)
Theorem C36_displacement : forall d kmax tmax eta verbose form, reachable d -> 2 <= tmax ->
  static_equilibrium d kmax tmax eta verbose = Ok form ->
  exists ts t previous, trails_sequences d = Ok ts /\ (1 <= t)%nat /\ Z.of_nat t < tmax
    /\ after d ts kmax t = Ok previous /\ positions_after d ts kmax (S t) form
    /\ (rsum (map (fun n => magnitude (position form n -v value v0 (dgetr (s_xyz previous) n))) (nodes form)) <= eta)%R.
Proof. exact c36_displacement. Qed.
(** On a ready topology the only other outcome is the ValueError, when every
  iteration has moved the nodes by at least the threshold and the last by more. *)
Theorem C36_no_convergence : forall d kmax tmax eta verbose e, reachable d -> ready d -> kmax_ok kmax -> 2 <= tmax ->
  static_equilibrium d kmax tmax eta verbose = Err e ->
  e = ValueError "Over iters" /\
  exists ts, trails_sequences d = Ok ts /\
    (exists x, moves d ts kmax (Z.to_nat tmax - 1) x /\ (eta < x)%R)
    /\ forall t x, (1 <= t)%nat -> Z.of_nat t < tmax -> moves d ts kmax t x -> (eta <= x)%R.
Proof. exact c36_no_convergence. Qed.
(** Absolute value and sign of the length attributes of the form. *)
Theorem C40_signed_lengths : forall d kmax tmax eta verbose form e, reachable d ->
  static_equilibrium d kmax tmax eta verbose = Ok form -> In e (edges form) ->
  exists l, edge_length_2 form e = Ok l /\ Rabs l = span form e
    /\ ((0 < span form e)%R -> ((l < 0)%R <-> (force form e < 0)%R)).
Proof. exact c40_signed_lengths. Qed.

Open Scope R_scope.
(** Translating the topology translates the form. *)
Theorem C42_translation : forall v d kmax tmax eta verbose,
  static_equilibrium (translated v d) kmax tmax eta verbose
  = map_result (translated v) (static_equilibrium d kmax tmax eta verbose).
Proof. exact c42_translation. Qed.
Theorem C42_translated : forall v d, image (fun p => p +v v) (fun q => q) (fun w => w) 1 1 d (translated v d).
Proof. exact c42_translated. Qed.
(** Form finding commutes with a motion, a change of the unit of length and a change
  of the unit of force, all at once; errors are the same. *)
Theorem C42_moved : forall s c Q v d kmax tmax eta verbose, 0 < s -> 0 < c -> isometry Q ->
  static_equilibrium (moved s c Q v d) kmax tmax (s * eta) verbose
  = map_result (moved s c Q v) (static_equilibrium d kmax tmax eta verbose).
Proof. exact c42_moved. Qed.
(** What [moved] does to the public queries of a diagram. *)
Theorem C42_image : forall s c Q v d, image (fun p => s *v Q p +v v) (fun q => c *v Q q) Q s c d (moved s c Q v d).
Proof. exact c42_image. Qed.
(** Multiplying all loads and deviation forces by a positive factor keeps the shape
  and multiplies all forces and reactions. *)
Theorem C43_reloaded_form : forall c d kmax tmax eta verbose, 0 < c ->
  static_equilibrium (reloaded c d) kmax tmax eta verbose
  = map_result (reloaded c) (static_equilibrium d kmax tmax eta verbose).
Proof. exact c43_reloaded_form. Qed.
Theorem C43_reloaded : forall c d, image (fun p => p) (fun q => c *v q) (fun w => w) 1 c d (reloaded c d).
Proof. exact c43_reloaded. Qed.
(** Rotating or mirroring the topology rotates or mirrors the form. *)
Theorem C62_rotated_form : forall Q d kmax tmax eta verbose, isometry Q ->
  static_equilibrium (rotated Q d) kmax tmax eta verbose
  = map_result (rotated Q) (static_equilibrium d kmax tmax eta verbose).
Proof. exact c62_rotated_form. Qed.
Theorem C62_rotated : forall Q d, image Q Q Q 1 1 d (rotated Q d).
Proof. exact c62_rotated. Qed.
(** Multiplying all coordinates and lengths, and the threshold, by a positive factor
  enlarges the form and keeps all forces. *)
Theorem C63_enlarged_form : forall s d kmax tmax eta verbose, 0 < s ->
  static_equilibrium (enlarged s d) kmax tmax (s * eta) verbose
  = map_result (enlarged s) (static_equilibrium d kmax tmax eta verbose).
Proof. exact c63_enlarged_form. Qed.
Theorem C63_enlarged : forall s d, image (fun p => s *v p) (fun q => q) (fun w => w) s 1 d (enlarged s d).
Proof. exact c63_enlarged. Qed.
(** A structure in the plane z = 0, loaded in that plane, finds a form in it. *)
Theorem C64_flat : forall d kmax tmax eta verbose form, reachable d -> flat d ->
  static_equilibrium d kmax tmax eta verbose = Ok form -> flat form.
Proof. exact c64_flat. Qed.
Close Scope R_scope.
Print Assumptions C25_node_equilibrium.
Print Assumptions C26_opposite_forces.
Print Assumptions C26_pulls.
Print Assumptions C27_plane_intersection.
Print Assumptions C28_planes.
Print Assumptions C29_lengths_kept.
Print Assumptions C30_state_partial.
Print Assumptions C31_direct_equilibrium.
Print Assumptions C32_residual_bound.
Print Assumptions C32_at_rest.
Print Assumptions C33_force_balance.
Print Assumptions C33_direct.
Print Assumptions C34_moment_balance.
Print Assumptions C34_direct.
Print Assumptions C35_success.
Print Assumptions C36_displacement.
Print Assumptions C36_no_convergence.
Print Assumptions C40_signed_lengths.
Print Assumptions C42_translation.
Print Assumptions C42_translated.
Print Assumptions C42_moved.
Print Assumptions C42_image.
Print Assumptions C43_reloaded_form.
Print Assumptions C43_reloaded.
Print Assumptions C62_rotated_form.
Print Assumptions C62_rotated.
Print Assumptions C63_enlarged_form.
Print Assumptions C63_enlarged.
Print Assumptions C64_flat.

(** ** Over binary64 floats *)

(** C65, what holds: a form with a coordinate that is not a number is only returned
  when all the iterations allowed have been used up, and the displacement of the last
  one was not a number either; a form returned earlier has numbers for coordinates. *)
Theorem C65_exhausted_partial : forall (d : diagram float) kmax tmax eta verbose form n p,
  reachable d -> 2 <= tmax -> static_equilibrium d kmax tmax eta verbose = Ok form ->
  node_coordinates form n = Ok p -> has_nan p ->
  exists ts x, trails_sequences d = Ok ts /\ moves d ts kmax (Z.to_nat tmax - 1) x /\ not_a_number x
    /\ forall s y, (1 <= s)%nat -> Z.of_nat s < tmax -> moves d ts kmax s y -> PrimFloat.ltb y eta = false.
Proof. exact c65_exhausted_partial. Qed.
Print Assumptions C65_exhausted_partial.

(** ** What does not hold *)

Theorem C30_refuted : exists (d form : diagram float) e l f, reachable d
  /\ static_equilibrium d None 100 0x1.4f8b588e368f1p-17%float false = Ok form
  /\ In e (trail_edges d) /\ edge_length_2 d e = Ok l /\ edge_force form e = Ok f
  /\ PrimFloat.ltb 0 l = true /\ PrimFloat.ltb f 0 = true.
Proof. exact c30_refuted. Qed.
Theorem C39_refuted : exists (d form : diagram float) n k, reachable d
  /\ static_equilibrium d (Some 0) 100 0x1.4f8b588e368f1p-17%float false = Ok form
  /\ node_sequence d n = Ok k /\ 0 < k /\ node_coordinates form n <> node_coordinates d n.
Proof. exact c39_refuted. Qed.
(** The node at the foot of a strut is not found where the form has it. *)
Theorem C58_refuted : exists (d form : diagram float) n p, reachable d
  /\ static_equilibrium d None 100 0x1.4f8b588e368f1p-17%float false = Ok form
  /\ node_coordinates form n = Ok p /\ node_key form (RXyz p) = None.
Proof. exact c58_refuted. Qed.
Theorem C65_refuted : exists (d form : diagram float) n p, reachable d
  /\ static_equilibrium d None 100 0x1.4f8b588e368f1p-17%float false = Ok form
  /\ (forall m q w, node_coordinates d m = Ok q -> node_load d m = Ok w -> finite q /\ finite w)
  /\ (forall e l f, edge_length_2 d e = Ok l -> edge_force d e = Ok f -> l = 1%float /\ f = 0%float)
  /\ node_coordinates form n = Ok p /\ has_nan p.
Proof. exact c65_refuted. Qed.
Print Assumptions C30_refuted.
Print Assumptions C39_refuted.
Print Assumptions C58_refuted.
Print Assumptions C65_refuted.

(** ** The hypotheses can be met *)

(** C25: the node equilibrium of the braced tower succeeds with indirect edges. *)
Example C25_nonvacuous : exists r,
  node_equilibrium rtower 1 v0 (s_xyz (init_state rtower)) true = Ok r
  /\ connected_direct_deviation_edges rtower 1 = Ok [(1, 4)]
  /\ connected_indirect_deviation_edges rtower 1 = Ok [(1, 5); (1, 3)].
Proof. eexists. split; [lazy; reflexivity|]. split; lazy; reflexivity. Qed.

(** C26: both resultants exist for an edge of the tower. *)
Example C26_nonvacuous : exists a b,
  deviation_edges_resultant_vector rtower 1 (s_xyz (init_state rtower)) [(1, 4)] = Ok a
  /\ deviation_edges_resultant_vector rtower 4 (s_xyz (init_state rtower)) [(1, 4)] = Ok b.
Proof. eexists. eexists. split; lazy; reflexivity. Qed.

(** C27: a plane that is met and one that is not. *)
Example C27_nonvacuous :
  (exists l, trail_length_from_plane v0 (V3 0 0 1)%R (V3 0 0 3, V3 0 0 1)%R (/ 1000000)%R = Some l)
  /\ trail_length_from_plane v0 (V3 0 0 1)%R (V3 3 0 0, V3 1 0 0)%R (/ 1000000)%R = None.
Proof.
  assert (D : direction (V3 0 0 1)%R = (V3 0 0 1)%R).
  { assert (M : magnitude (V3 0 0 1)%R = 1%R).
    { unfold magnitude. cbn [vx vy vz]. replace (0 * 0 + 0 * 0 + 1 * 1)%R with 1%R by ring. apply sqrt_1. }
    unfold direction. rewrite M. cbn [vx vy vz]. f_equal; field. }
  split.
  - destruct (C27_plane_intersection v0 (V3 0 0 1)%R (V3 0 0 3)%R (V3 0 0 1)%R (/ 1000000)%R ltac:(lra)) as [N _].
    destruct (trail_length_from_plane _ _ _ _) as [l|]; [eauto|]. exfalso.
    assert (X := proj1 N eq_refl).
    assert (Y : dot (V3 0 0 1)%R (V3 0 0 1)%R = 1%R) by (vunf; ring).
    rewrite D, Y, Rabs_R1 in X. lra.
  - apply (C27_plane_intersection v0 (V3 0 0 1)%R (V3 3 0 0)%R (V3 1 0 0)%R (/ 1000000)%R ltac:(lra)).
    assert (Y : dot (V3 1 0 0)%R (V3 0 0 1)%R = 0%R) by (vunf; ring). rewrite D, Y, Rabs_R0. lra.
Qed.

(** C28 - C30: a chain with planes, whose edges carry forces; C29 without a plane *)
Example C28_nonvacuous : exists form, reachable rchain /\ ready rchain /\ nonzero_trails rchain
  /\ static_equilibrium rchain None 100 (/ 1000000)%R false = Ok form
  /\ follows rchain 0 1 /\ edge_between rchain 0 1 (0, 1)
  /\ (exists o nrm l, edge_plane rchain (0, 1) = Ok (Some (o, nrm)) /\ edge_length_2 rchain (0, 1) = Ok l)
  /\ force form (0, 1) <> 0%R
  /\ follows rchain 1 2 /\ edge_between rchain 1 2 (1, 2)
  /\ edge_plane rchain (1, 2) = Ok None /\ (exists l, edge_length_2 rchain (1, 2) = Ok l)
  /\ force form (1, 2) <> 0%R.
Proof.
  destruct rchain_forms as [form E]. destruct (rchain_forces form E) as [F0 F1]. exists form.
  assert (T : trail_edges rchain = [(0, 1); (1, 2); (2, 3)]) by (lazy; reflexivity).
  assert (Tr : stored rchain = [[0; 1; 2; 3]]) by (lazy; reflexivity).
  assert (Fw : follows rchain 0 1 /\ follows rchain 1 2).
  { split; exists [0; 1; 2; 3]; rewrite Tr; (split; [left; reflexivity|]).
    - exists [], [2; 3]. reflexivity.
    - exists [0], [3]. reflexivity. }
  split; [apply rchain_reachable|]. split; [apply rchain_ready|]. split; [apply rchain_nonzero|].
  split; [exact E|]. split; [apply Fw|].
  split; [split; [rewrite T; cbn; auto|auto]|].
  split; [eexists; eexists; eexists; split; lazy; reflexivity|].
  split; [exact F0|]. split; [apply Fw|].
  split; [split; [rewrite T; cbn; auto|auto]|].
  split; [lazy; reflexivity|]. split; [eexists; lazy; reflexivity|exact F1].
Qed.

(** C31, C33 - C35, C37, C38, C40: the funicular of three bars, with a deviation edge *)
Example C31_nonvacuous : exists form, reachable funicular /\ ready funicular /\ direct_only funicular
  /\ deviation_edges funicular = [(1, 2)] /\ nonzero_trails funicular
  /\ static_equilibrium funicular None 100 (/ 1000000)%R false = Ok form
  /\ edges form = [(0, 1); (1, 2); (2, 3)] /\ sequence_last funicular = Ok 1.
Proof.
  destruct funicular_forms as [form E]. exists form.
  destruct (C37_frame _ _ _ _ _ _ funicular_reachable E) as (_&Ef&_).
  split; [apply funicular_reachable|]. split; [apply funicular_ready|].
  split; [apply funicular_direct|]. split; [apply funicular_direct|]. split; [apply funicular_nonzero|].
  split; [exact E|]. split; [rewrite Ef; lazy; reflexivity|lazy; reflexivity].
Qed.

(** C32, C36, C39: two columns joined by an indirect deviation edge *)
Example C32_nonvacuous : exists eta form, (0 < eta)%R /\ reachable rcolumns /\ ready rcolumns /\ nonzero_trails rcolumns
  /\ static_equilibrium rcolumns None 100 eta false = Ok form
  /\ In 1 (nodes form) /\ indirect_at rcolumns 1 = [(1, 3)]
  /\ (forall e, In e (indirect_at rcolumns 1) -> (0 < span form e)%R).
Proof.
  destruct rcolumns_forms as (eta&form&P&E). exists eta, form.
  destruct (C37_frame _ _ _ _ _ _ rcolumns_reachable E) as (Nf&_).
  split; [exact P|]. split; [apply rcolumns_reachable|]. split; [apply rcolumns_ready|].
  split; [apply rcolumns_nonzero|]. split; [exact E|].
  assert (N : nodes rcolumns = [0; 1; 2; 3]) by (lazy; reflexivity).
  split; [rewrite Nf, N; cbn; auto|]. split; [apply rcolumns_indirect|]. now apply (rcolumns_span eta).
Qed.

(** C36: a run that does not converge, computed: the two columns of floats with a
    negative threshold *)
Example C36_nonvacuous : reachable float_tower
  /\ static_equilibrium float_tower None 2 (-1)%float false = Err (ValueError "Over iters")
  /\ static_equilibrium float_tower None 0 1%float false = Err UnboundLocalError.
Proof. split; [apply float_tower_reachable|]. split; vm_compute; reflexivity. Qed.

(** C39: kmax leaves part of a chain where it is. *)
Example C39_nonvacuous : exists form full, reachable rchain /\ ready rchain /\ direct_only rchain
  /\ static_equilibrium rchain (Some 1) 100 (/ 1000000)%R false = Ok form
  /\ static_equilibrium rchain None 100 (/ 1000000)%R false = Ok full
  /\ node_sequence rchain 2 = Ok (1 + 1) /\ node_sequence rchain 1 = Ok 1.
Proof.
  destruct (C35_success rchain (Some 1) 100 (/ 1000000)%R false rchain_reachable rchain_ready
              rchain_direct ltac:(cbn; lia) ltac:(lia) ltac:(lra) ltac:(discriminate)) as (f&E&_).
  destruct rchain_forms as [full E']. exists f, full.
  split; [apply rchain_reachable|]. split; [apply rchain_ready|]. split; [apply rchain_direct|].
  split; [exact E|]. split; [exact E'|]. split; lazy; reflexivity.
Qed.

(** C58: the origin of the strut is found by its coordinates. *)
Example C58_nonvacuous : exists form p, reachable float_tower /\ In (2, [2; 1; 0]) (trails float_tower)
  /\ static_equilibrium float_tower None 100 0x1.4f8b588e368f1p-17%float false = Ok form
  /\ node_coordinates float_tower 2 = Ok p /\ node_key float_tower (RXyz p) = Some 2.
Proof.
  eexists. eexists. split; [apply float_tower_reachable|]. split; [vm_compute; auto|].
  split; [vm_compute; reflexivity|]. split; [vm_compute; reflexivity|]. vm_compute; reflexivity.
Qed.

(** C61: the tower and its chains, before build_trails *)
Example C61_nonvacuous : reachable (rmade (braced_tower_2d IZR)) /\ chains (rmade (braced_tower_2d IZR)) [[2; 1; 0]; [5; 4; 3]]
  /\ covers (rmade (braced_tower_2d IZR)) [[2; 1; 0]; [5; 4; 3]]
  /\ soft rtower (OpSetCoords 1 (V3 1 2 3)%R) /\ soft rtower (OpShiftTrail 5 3).
Proof.
  split; [made_reachable|]. split; [apply chains_b_ok; lazy; reflexivity|].
  split; [apply covers_b_ok; lazy; reflexivity|]. split; [exact I|cbn; lia].
Qed.

(** C62: a quarter turn, and a mirror image *)
Definition quarter_turn (u : rvec) : rvec := V3 (- vy u)%R (vx u) (vz u).
Example C62_nonvacuous : isometry quarter_turn /\ isometry mirror
  /\ quarter_turn (V3 1 2 3)%R = (V3 (-2) 1 3)%R.
Proof.
  split; [|split; [apply mirror_isometry|unfold quarter_turn; cbn [vx vy vz]; f_equal; lra]].
  constructor; intros; unfold quarter_turn; try vring. vunf. ring.
Qed.

(** C64: the funicular is flat. *)
Example C64_nonvacuous : exists form, reachable funicular /\ flat funicular
  /\ static_equilibrium funicular None 100 (/ 1000000)%R false = Ok form.
Proof.
  destruct funicular_forms as [form E]. exists form. split; [apply funicular_reachable|]. split; [apply funicular_flat|exact E].
Qed.

(** C66: the funicular with its supports elsewhere *)
Example C66_nonvacuous : reachable funicular /\ ready funicular /\ reachable funicular_elsewhere
  /\ same_but_coordinates funicular funicular_elsewhere
  /\ (forall key tr, In (key, tr) (trails funicular) -> node_coordinates funicular_elsewhere key = node_coordinates funicular key)
  /\ trails funicular = [(1, [1; 0]); (2, [2; 3])]
  /\ node_coordinates funicular_elsewhere 0 <> node_coordinates funicular 0.
Proof.
  split; [apply funicular_reachable|]. split; [apply funicular_ready|]. apply funicular_elsewhere_ok.
Qed.
