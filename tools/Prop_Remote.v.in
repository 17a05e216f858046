(** * Properties of solving in another process (C93)

    Generated by tools/gen_props.py from the lemmas of RemoteThms.v and WitnessRemote.v.
    The vocabulary is in SpecRemote.v. *)

From Coq Require Import String List ZArith Bool Floats.
From Verif Require Import Py PyFacts Num Diagram Topology History Equilibrium EquilibriumNp Fixtures SpecDiagram Constraints Optimizer SpecOptimizer
  Serialize SpecSerialize Files SpecFiles FilesThms Remote SpecRemote RemoteThms Witness WitnessEq WitnessOpt WitnessRemote.
Import ListNotations.
Open Scope Z_scope.

Section Generic.
  Context {T : Type} `{NumOps T}.

  @thm c93_solution_partial
  @thm c93_objects
  @thm c93_results
  @thm c93_stuck
  @thm c93_lost
End Generic.
@assume

@thm c93_refuted
@assume

(** ** The hypotheses can be met *)

(** The braced tower with four parameters and two constraints is solved here and in another
    process; the gradient is found by evaluating the objective next to the point.  With a
    target that cannot travel, the constraint is usable all the same. *)
Example C93_nonvacuous : only_calls differences
  /\ Forall usable tower_goals /\ Forall can_travel tower_goals
  /\ (exists r, local_solve differences goes_back float_tower tower_goals (map parameter_object tower_parameters) "SLSQP" 100 0x1p-20%float None None 100 neps6 = Ok r)
  /\ (exists r, remote_solve differences goes_back float_tower tower_goals (map parameter_object tower_parameters) "SLSQP" 100 0x1p-20%float None None 100 neps6 = Ok r)
  /\ exists c, In c tower_plain /\ usable c /\ ~ can_travel c.
Proof.
  split; [apply differences_only_call|]. split; [repeat constructor; eexists; vm_compute; reflexivity|].
  split; [repeat constructor; vm_compute; reflexivity|].
  split; [apply ended_ok, tower_solved|]. split; [apply ended_ok, tower_solved|].
  eexists. split; [left; reflexivity|]. split; [eexists; reflexivity|]. intros [].
Qed.
