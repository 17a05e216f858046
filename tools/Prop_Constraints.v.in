(** * Properties of constraints (C48-C51)

    Generated by tools/gen_props.py from the lemmas of ConThms.v.
    The vocabulary is in SpecConstraints.v. *)

From Coq Require Import String List ZArith Bool Lia Reals Lra.
From Verif Require Import Py PyFacts Num Diagram Equilibrium RVec SpecStatics Constraints SpecConstraints ConThms WitnessCon.
Import ListNotations.
Open Scope R_scope.

Implicit Types (st : eqstate R) (c : constraint R).

@thm c48_penalty
@thm c48_no_deviation
@thm c48_total
@thm c48_zero
@thm c49_line
@thm c49_plane
@thm c50_polyline
@thm c50_penalty
@thm c51_parallel
@thm c51_scaled
@assume

(** ** The hypotheses can be met *)

(** One constraint of each class on two nodes: the penalty is defined and positive. *)
Example C48_nonvacuous : (forall c, In c eight -> has_direction two_nodes (c_goal c) /\ 0 < c_weight c)
  /\ exists x, calculate_penalty eight two_nodes = Ok x /\ 0 < x.
Proof. split; [apply eight_well|apply eight_positive]. Qed.

(** Goals of each class that are met: the penalty is zero. *)
Example C48_met_nonvacuous : (forall c, In c eight_met -> has_direction two_nodes (c_goal c) /\ 0 < c_weight c)
  /\ calculate_penalty eight_met two_nodes = Ok 0.
Proof. split; [apply eight_met_well|apply eight_met_zero]. Qed.

(** The edge has two ends and a direction. *)
Example C51_nonvacuous : node_at two_nodes 0%Z (V3 0 0 0) /\ node_at two_nodes 1%Z (V3 3 4 0) /\ V3 0 0 0 <> V3 3 4 0.
Proof. split; [reflexivity|]. split; [reflexivity|]. intros E. apply (f_equal vx) in E. cbn in E. lra. Qed.
