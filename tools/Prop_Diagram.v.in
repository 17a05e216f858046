(** * Properties of diagram construction (C01 - C10, C60)

    Generated by tools/gen_props.py from the lemmas of DiagramThms.v, WeldFacts.v
    and Witness.v.  The vocabulary is in SpecDiagram.v and History.v. *)

From Coq Require Import String List ZArith Bool Permutation Reals Floats.
From Verif Require Import Py Num Diagram Topology History Fixtures SpecDiagram SpecTopology
  DiagramThms WeldFacts Witness.
Import ListNotations.
Open Scope Z_scope.

Section Generic.
  Context {T : Type} `{NumOps T}.
  Implicit Types (d : diagram T).

  @thm c01_integrity
  @thm c02_fresh_key
  @thm c03_add_node
  @thm c04_lookup
  @thm c05_add_edge_ends
  @thm c06_welding
  @thm c06_data
  @thm c07_add_edge_writes
  @thm c08_add_edge_rejects
  @thm c09_add_support
  @thm c09_add_load
  @thm c10_move_partial
  @thm c60_failing_add_edge_partial
End Generic.
@assume

(** Over the reals: the looked-up node is or was within one unit of the last decimal. *)
Section OverR.
  Local Open Scope R_scope.
@thm c04_rounding
@thm c04_lookup_distance
End OverR.
@assume

(** ** What does not hold *)

@thm c10_refuted
@thm c60_refuted
@assume

(** ** The hypotheses can be met *)

(** C01: a history in which calls fail (key 99 and location (7,7,7) do not exist). *)
Definition history : list (op float) :=
  braced_tower_2d zf ++ [trail_e zf 0 99 1; OpAddSupport (RXyz (fv 7 7 7)); OpAddLoad (RKey 99) (fv 1 1 1);
    OpAddEdge (RXyz (fv 5 5 5)) (RKey 99) (DeviationEdge (zf 1)); OpNodeXyz 1 (fv 3 3 3);
    OpBuildTrails (@rev Z) true; OpShiftTrail 2 4].
Example C01_nonvacuous : Forall valid_op history
  /\ List.length (nodes (run empty_diagram history)) = 8%nat
  /\ trails (run empty_diagram history) = [(2, [2; 1; 0]); (5, [5; 4; 3]); (6, [6; 7])]
  /\ snd (call (trail_e zf 0 99 1) (made (braced_tower_2d zf))) = Err AttributeError.
Proof. split; [unfold history; valid|]. comps. Qed.

(** C02, C03, C05, C07 - C10: a reachable diagram with nodes, edges, loads and supports *)
Example C02_nonvacuous : reachable tower /\ nodes tower = [0; 1; 2; 3; 4; 5]
  /\ snd (add_node None (fv 1 1 1) tower) = Ok 6
  /\ node_key tower (RXyz (fv 0 1 0)) = Some 1 /\ node_key tower (RXyz (fv 0 7 0)) = None
  /\ In (1, 5) (edges tower) /\ ~ In (5, 1) (edges tower) /\ In 0 (support_nodes tower).
Proof. split; [apply tower_reachable|]. comps. Qed.

(** C04: coordinates that differ but round to the same location *)
Definition near : vec float := V3 (PrimFloat.div (zf 1) (zf 4096)) (zf 1) (zf 0).
Example C04_nonvacuous : node_key tower (RXyz near) = Some 1
  /\ node_coordinates tower 1 = Ok (fv 0 1 0) /\ near <> fv 0 1 0.
Proof.
  split; [comp|]. split; [comp|]. intros E.
  assert (X : PrimFloat.eqb (vx near) (zf 0) = true) by (rewrite E; vm_compute; reflexivity).
  vm_compute in X. discriminate.
Qed.

(** C06: a triangle from three lines whose ends coincide up to rounding *)
Definition triangle : list (line (T := float)) :=
  [(fv 0 0 0, fv 0 1 0, TrailEdge (zf 1) None);
   (near, fv 1 0 0, DeviationEdge (zf 1));
   (fv 1 0 0, fv 0 0 0, DeviationEdge (zf 1))].
Example C06_nonvacuous : nodes (assemble 3 triangle) = [0; 1; 2]
  /\ edges (assemble 3 triangle) = [(0, 1); (1, 2); (2, 0)].
Proof. comps. Qed.

(** C60: such calls exist *)
Example C60_nonvacuous : reachable tower
  /\ exists d', add_edge (RXyz (fv 7 7 7)) (RKey 99) (DeviationEdge (zf 1)) tower = (d', Err AttributeError)
       /\ nodes d' = [0; 1; 2; 3; 4; 5; 6].
Proof.
  split; [apply tower_reachable|].
  exists (fst (add_edge (RXyz (fv 7 7 7)) (RKey 99) (DeviationEdge (zf 1)) tower)). comps.
Qed.
