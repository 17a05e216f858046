(** * Properties of form finding (C25 - C40, C42, C43, C58, C61 - C66)

    Generated by tools/gen_props.py from the lemmas of EqThms.v, ReadyThms.v,
    CoordsThms.v, StaticsThms.v, TransformThms.v, FloatThms.v and WitnessEq.v.  The vocabulary is
    in SpecTopology.v, SpecEquilibrium.v, SpecStatics.v and SpecTransform.v. *)

From Coq Require Import String List ZArith Bool Lia Permutation Floats Reals Lra.
From Verif Require Import Py Num Diagram Topology Equilibrium History Fixtures SpecDiagram SpecTopology
  SpecEquilibrium SpecStatics SpecTransform RVec EqThms ReadyThms CoordsThms StaticsThms TransformThms
  FloatThms Witness WitnessEq.
Import ListNotations.
Open Scope Z_scope.

(** ** For any scalar type *)

Section Generic.
  Context {T : Type} `{NumOps T}.
  Implicit Types (d : diagram T).

  @thm c35_one_iteration
  @thm c36_success
  @thm c36_failure
  @thm c36_no_iterations
  @thm c36_single_iteration
  @thm c37_frame
  @thm c37_inputs
  @thm c38_kmax_beyond
  @thm c38_negative
  @thm c39_kmax_partial
  @thm c40_lengths
  @thm c58_origins_partial
  @thm c61_built_ready
  @thm c61_built_auxiliary_ready
  @thm c61_ready_kept
  @thm c66_origins_only
End Generic.
@assume

(** ** Over the real numbers *)

@thm c25_node_equilibrium
@thm c26_opposite_forces
@thm c26_pulls
@thm c27_plane_intersection
@thm c28_planes
@thm c29_lengths_kept
@thm c30_state_partial
@thm c31_direct_equilibrium
@thm c32_residual_bound
@thm c32_at_rest
@thm c33_force_balance
@thm c33_direct
@thm c34_moment_balance
@thm c34_direct
@thm c35_success
@thm c36_displacement
@thm c36_no_convergence
@thm c40_signed_lengths

Open Scope R_scope.
@thm c42_translation
@thm c42_translated
@thm c42_moved
@thm c42_image
@thm c43_reloaded_form
@thm c43_reloaded
@thm c62_rotated_form
@thm c62_rotated
@thm c63_enlarged_form
@thm c63_enlarged
@thm c64_flat
Close Scope R_scope.
@assume

(** ** Over binary64 floats *)

@thm c65_exhausted_partial
@assume

(** ** What does not hold *)

@thm c30_refuted
@thm c39_refuted
@thm c58_refuted
@thm c65_refuted
@assume

(** ** The hypotheses can be met *)

(** C25: the node equilibrium of the braced tower succeeds with indirect edges. *)
Example C25_nonvacuous : exists r,
  node_equilibrium rtower 1 v0 (s_xyz (init_state rtower)) true = Ok r
  /\ connected_direct_deviation_edges rtower 1 = Ok [(1, 4)]
  /\ connected_indirect_deviation_edges rtower 1 = Ok [(1, 5); (1, 3)].
Proof. eexists. split; [lazy; reflexivity|]. split; lazy; reflexivity. Qed.

(** C26: both resultants exist for an edge of the tower. *)
Example C26_nonvacuous : exists a b,
  deviation_edges_resultant_vector rtower 1 (s_xyz (init_state rtower)) [(1, 4)] = Ok a
  /\ deviation_edges_resultant_vector rtower 4 (s_xyz (init_state rtower)) [(1, 4)] = Ok b.
Proof. eexists. eexists. split; lazy; reflexivity. Qed.

(** C27: a plane that is met and one that is not. *)
Example C27_nonvacuous :
  (exists l, trail_length_from_plane v0 (V3 0 0 1)%R (V3 0 0 3, V3 0 0 1)%R (/ 1000000)%R = Some l)
  /\ trail_length_from_plane v0 (V3 0 0 1)%R (V3 3 0 0, V3 1 0 0)%R (/ 1000000)%R = None.
Proof.
  assert (D : direction (V3 0 0 1)%R = (V3 0 0 1)%R).
  { assert (M : magnitude (V3 0 0 1)%R = 1%R).
    { unfold magnitude. cbn [vx vy vz]. replace (0 * 0 + 0 * 0 + 1 * 1)%R with 1%R by ring. apply sqrt_1. }
    unfold direction. rewrite M. cbn [vx vy vz]. f_equal; field. }
  split.
  - destruct (C27_plane_intersection v0 (V3 0 0 1)%R (V3 0 0 3)%R (V3 0 0 1)%R (/ 1000000)%R ltac:(lra)) as [N _].
    destruct (trail_length_from_plane _ _ _ _) as [l|]; [eauto|]. exfalso.
    assert (X := proj1 N eq_refl).
    assert (Y : dot (V3 0 0 1)%R (V3 0 0 1)%R = 1%R) by (vunf; ring).
    rewrite D, Y, Rabs_R1 in X. lra.
  - apply (C27_plane_intersection v0 (V3 0 0 1)%R (V3 3 0 0)%R (V3 1 0 0)%R (/ 1000000)%R ltac:(lra)).
    assert (Y : dot (V3 1 0 0)%R (V3 0 0 1)%R = 0%R) by (vunf; ring). rewrite D, Y, Rabs_R0. lra.
Qed.

(** C28 - C30: a chain with planes, whose edges carry forces; C29 without a plane *)
Example C28_nonvacuous : exists form, reachable rchain /\ ready rchain /\ nonzero_trails rchain
  /\ static_equilibrium rchain None 100 (/ 1000000)%R false = Ok form
  /\ follows rchain 0 1 /\ edge_between rchain 0 1 (0, 1)
  /\ (exists o nrm l, edge_plane rchain (0, 1) = Ok (Some (o, nrm)) /\ edge_length_2 rchain (0, 1) = Ok l)
  /\ force form (0, 1) <> 0%R
  /\ follows rchain 1 2 /\ edge_between rchain 1 2 (1, 2)
  /\ edge_plane rchain (1, 2) = Ok None /\ (exists l, edge_length_2 rchain (1, 2) = Ok l)
  /\ force form (1, 2) <> 0%R.
Proof.
  destruct rchain_forms as [form E]. destruct (rchain_forces form E) as [F0 F1]. exists form.
  assert (T : trail_edges rchain = [(0, 1); (1, 2); (2, 3)]) by (lazy; reflexivity).
  assert (Tr : stored rchain = [[0; 1; 2; 3]]) by (lazy; reflexivity).
  assert (Fw : follows rchain 0 1 /\ follows rchain 1 2).
  { split; exists [0; 1; 2; 3]; rewrite Tr; (split; [left; reflexivity|]).
    - exists [], [2; 3]. reflexivity.
    - exists [0], [3]. reflexivity. }
  split; [apply rchain_reachable|]. split; [apply rchain_ready|]. split; [apply rchain_nonzero|].
  split; [exact E|]. split; [apply Fw|].
  split; [split; [rewrite T; cbn; auto|auto]|].
  split; [eexists; eexists; eexists; split; lazy; reflexivity|].
  split; [exact F0|]. split; [apply Fw|].
  split; [split; [rewrite T; cbn; auto|auto]|].
  split; [lazy; reflexivity|]. split; [eexists; lazy; reflexivity|exact F1].
Qed.

(** C31, C33 - C35, C37, C38, C40: the funicular of three bars, with a deviation edge *)
Example C31_nonvacuous : exists form, reachable funicular /\ ready funicular /\ direct_only funicular
  /\ deviation_edges funicular = [(1, 2)] /\ nonzero_trails funicular
  /\ static_equilibrium funicular None 100 (/ 1000000)%R false = Ok form
  /\ edges form = [(0, 1); (1, 2); (2, 3)] /\ sequence_last funicular = Ok 1.
Proof.
  destruct funicular_forms as [form E]. exists form.
  destruct (C37_frame _ _ _ _ _ _ funicular_reachable E) as (_&Ef&_).
  split; [apply funicular_reachable|]. split; [apply funicular_ready|].
  split; [apply funicular_direct|]. split; [apply funicular_direct|]. split; [apply funicular_nonzero|].
  split; [exact E|]. split; [rewrite Ef; lazy; reflexivity|lazy; reflexivity].
Qed.

(** C32, C36, C39: two columns joined by an indirect deviation edge *)
Example C32_nonvacuous : exists eta form, (0 < eta)%R /\ reachable rcolumns /\ ready rcolumns /\ nonzero_trails rcolumns
  /\ static_equilibrium rcolumns None 100 eta false = Ok form
  /\ In 1 (nodes form) /\ indirect_at rcolumns 1 = [(1, 3)]
  /\ (forall e, In e (indirect_at rcolumns 1) -> (0 < span form e)%R).
Proof.
  destruct rcolumns_forms as (eta&form&P&E). exists eta, form.
  destruct (C37_frame _ _ _ _ _ _ rcolumns_reachable E) as (Nf&_).
  split; [exact P|]. split; [apply rcolumns_reachable|]. split; [apply rcolumns_ready|].
  split; [apply rcolumns_nonzero|]. split; [exact E|].
  assert (N : nodes rcolumns = [0; 1; 2; 3]) by (lazy; reflexivity).
  split; [rewrite Nf, N; cbn; auto|]. split; [apply rcolumns_indirect|]. now apply (rcolumns_span eta).
Qed.

(** C36: a run that does not converge, computed: the two columns of floats with a
    negative threshold *)
Example C36_nonvacuous : reachable float_tower
  /\ static_equilibrium float_tower None 2 (-1)%float false = Err (ValueError "Over iters")
  /\ static_equilibrium float_tower None 0 1%float false = Err UnboundLocalError.
Proof. split; [apply float_tower_reachable|]. split; vm_compute; reflexivity. Qed.

(** C39: kmax leaves part of a chain where it is. *)
Example C39_nonvacuous : exists form full, reachable rchain /\ ready rchain /\ direct_only rchain
  /\ static_equilibrium rchain (Some 1) 100 (/ 1000000)%R false = Ok form
  /\ static_equilibrium rchain None 100 (/ 1000000)%R false = Ok full
  /\ node_sequence rchain 2 = Ok (1 + 1) /\ node_sequence rchain 1 = Ok 1.
Proof.
  destruct (C35_success rchain (Some 1) 100 (/ 1000000)%R false rchain_reachable rchain_ready
              rchain_direct ltac:(cbn; lia) ltac:(lia) ltac:(lra) ltac:(discriminate)) as (f&E&_).
  destruct rchain_forms as [full E']. exists f, full.
  split; [apply rchain_reachable|]. split; [apply rchain_ready|]. split; [apply rchain_direct|].
  split; [exact E|]. split; [exact E'|]. split; lazy; reflexivity.
Qed.

(** C58: the origin of the strut is found by its coordinates. *)
Example C58_nonvacuous : exists form p, reachable float_tower /\ In (2, [2; 1; 0]) (trails float_tower)
  /\ static_equilibrium float_tower None 100 0x1.4f8b588e368f1p-17%float false = Ok form
  /\ node_coordinates float_tower 2 = Ok p /\ node_key float_tower (RXyz p) = Some 2.
Proof.
  eexists. eexists. split; [apply float_tower_reachable|]. split; [vm_compute; auto|].
  split; [vm_compute; reflexivity|]. split; [vm_compute; reflexivity|]. vm_compute; reflexivity.
Qed.

(** C61: the tower and its chains, before build_trails *)
Example C61_nonvacuous : reachable (rmade (braced_tower_2d IZR)) /\ chains (rmade (braced_tower_2d IZR)) [[2; 1; 0]; [5; 4; 3]]
  /\ covers (rmade (braced_tower_2d IZR)) [[2; 1; 0]; [5; 4; 3]]
  /\ soft rtower (OpSetCoords 1 (V3 1 2 3)%R) /\ soft rtower (OpShiftTrail 5 3).
Proof.
  split; [made_reachable|]. split; [apply chains_b_ok; lazy; reflexivity|].
  split; [apply covers_b_ok; lazy; reflexivity|]. split; [exact I|cbn; lia].
Qed.

(** C62: a quarter turn, and a mirror image *)
Definition quarter_turn (u : rvec) : rvec := V3 (- vy u)%R (vx u) (vz u).
Example C62_nonvacuous : isometry quarter_turn /\ isometry mirror
  /\ quarter_turn (V3 1 2 3)%R = (V3 (-2) 1 3)%R.
Proof.
  split; [|split; [apply mirror_isometry|unfold quarter_turn; cbn [vx vy vz]; f_equal; lra]].
  constructor; intros; unfold quarter_turn; try vring. vunf. ring.
Qed.

(** C64: the funicular is flat. *)
Example C64_nonvacuous : exists form, reachable funicular /\ flat funicular
  /\ static_equilibrium funicular None 100 (/ 1000000)%R false = Ok form.
Proof.
  destruct funicular_forms as [form E]. exists form. split; [apply funicular_reachable|]. split; [apply funicular_flat|exact E].
Qed.

(** C66: the funicular with its supports elsewhere *)
Example C66_nonvacuous : reachable funicular /\ ready funicular /\ reachable funicular_elsewhere
  /\ same_but_coordinates funicular funicular_elsewhere
  /\ (forall key tr, In (key, tr) (trails funicular) -> node_coordinates funicular_elsewhere key = node_coordinates funicular key)
  /\ trails funicular = [(1, [1; 0]); (2, [2; 3])]
  /\ node_coordinates funicular_elsewhere 0 <> node_coordinates funicular 0.
Proof.
  split; [apply funicular_reachable|]. split; [apply funicular_ready|]. apply funicular_elsewhere_ok.
Qed.
