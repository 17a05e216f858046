(** * Properties of constraints met by a form, and of topologies after solving (C91, C92, C105)

    Generated by tools/gen_props.py from the lemmas of HandThms.v, MetThms.v,
    WitnessMet.v and WitnessBounds.v.  The vocabulary is in SpecMet.v, SpecHand.v and
    SpecBounds.v. *)

From Coq Require Import String List ZArith Bool Lia Floats Reals Lra.
From Verif Require Import Py PyFacts Num Diagram DiagramFacts Topology History HistoryFacts Fixtures SpecDiagram Equilibrium EquilibriumNp Constraints Optimizer
  SpecEquilibrium SpecStatics SpecConstraints SpecOptimizer SpecNumpy SpecMet RVec FormFacts EqThms StaticsThms NpThms OptFacts OptThms SolveThms ReportThms
  SpecHand HandThms MetThms Witness WitnessEq WitnessNp WitnessOpt WitnessMet SpecBounds WitnessBounds.
Import ListNotations.

(** ** Topologies after solving *)

Open Scope Z_scope.

Section Hand.
  Context {T : Type} `{NumOps T}.
  Implicit Types (d : diagram T) (o : optimizer T).

@thm c92_by_hand
@thm c92_evaluation
@thm c92_still_built
@thm c105_lookup_partial
@thm c105_still_partial
End Hand.

(** ** Constraints *)

Open Scope R_scope.

@thm c91_value
@thm c91_small
@thm c91_zero
@thm c91_solved_partial

(** ** Counterexamples *)

Open Scope Z_scope.
@thm c91_refuted
@thm c105_refuted
@thm c105_twice_refuted
@assume

(** ** The hypotheses can be met *)

(** The funicular, solved for two goals by a solver that evaluates the start: whatever the
    target of the support, all hypotheses hold, and the support is at a target of its own. *)
Example C91_nonvacuous : forall p, exists form f v o',
  reachable funicular /\ ready funicular /\ direct_only funicular
  /\ solver_run no_ad_R stays_R (target_optimizer p) funicular "SLSQP" "AD" 1%R 100 None None 100 neps6 = Ok ([] ++ [[f]], Ok (AReturn [f] v 1 1))
  /\ solve no_ad_R stays_R "SLSQP" "AD" 1%R 100 None None 100 neps6 (target_optimizer p, funicular) = ((o', funicular), Ok form)
  /\ form_is_sound funicular form
  /\ forall k c, In (k, c) (o_cons (target_optimizer p)) -> form_directed form (c_goal c) /\ (0 < c_weight c)%R.
Proof.
  intros p. destruct (funicular_solved p) as (form&f&v&o'&A&B&C). exists form, f, v, o'.
  split; [apply funicular_reachable|]. split; [apply funicular_ready|]. split; [apply funicular_direct|].
  split; [exact A|]. split; [exact B|]. split; [exact C|]. exact (funicular_target p form C).
Qed.

(** The tower is built by calls of the API, and solving changes it. *)
Example C92_nonvacuous : reachable float_tower
  /\ let r := solve no_ad goes_back "SLSQP" "FD" 0x1p-20%float 100 None None 100 neps6 (tower_optimizer, float_tower) in
     (exists form, snd r = Ok form) /\ edge_force float_tower (1, 5) = Ok 1%float /\ edge_force (snd (fst r)) (1, 5) = Ok 0x1.8p0%float.
Proof.
  split; [apply float_tower_reachable|]. split; [eexists; vm_compute; reflexivity|]. split; vm_compute; reflexivity.
Qed.

(** An evaluation that raises changes the tower, too: the array of variables is too short. *)
Example C92_raises_nonvacuous :
  let r := optimize_form tower_optimizer 100 neps6 [3%float] float_tower in
  snd r = Err IndexError /\ edge_force (fst r) (1, 5) = Ok 3%float.
Proof. split; vm_compute; reflexivity. Qed.

(** Solving moves the node 2 of the tower; the node 5 stays and is found. *)
Example C105_nonvacuous :
  let r := solve no_ad climbs "SLSQP" "FD" 0x1p-20%float 100 None None 100 neps6 (moving_origin, float_tower) in
  (exists form, snd r = Ok form) /\ node_coordinates (snd (fst r)) 2 = Ok (V3 0x1p-2 2 0)%float
  /\ (forall a, In a [AX; AY; AZ] -> ~ In (NodeSlot 5 a) (addressed moving_origin))
  /\ node_coordinates float_tower 5 = Ok (V3 1 2 0)%float /\ node_key float_tower (RXyz (V3 1 2 0)%float) = Some 5.
Proof.
  split; [eexists; vm_compute; reflexivity|]. split; [vm_compute; reflexivity|].
  split; [intros a _ J; vm_compute in J; destruct J as [J|[]]; discriminate J|]. split; vm_compute; reflexivity.
Qed.
