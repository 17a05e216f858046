(** * Properties of bounds (C87)

    Generated by tools/gen_props.py from the lemmas of BoundThms.v and WitnessBounds.v.
    The vocabulary is in SpecBounds.v and SpecOptimizer.v. *)

From Coq Require Import String List ZArith Bool Lia Floats Reals Lra.
From Verif Require Import Py PyFacts Num Diagram Topology History Equilibrium EquilibriumNp Constraints Optimizer SpecOptimizer SpecBounds
  Fixtures SpecDiagram OptFacts OptThms ReportThms BoundThms RVec Witness WitnessEq WitnessOpt WitnessBounds.
Import ListNotations.
Open Scope R_scope.

@thm c87_bounds_partial
@thm c87_reported_partial
@thm c87_repeated_partial
@assume

(** ** Counterexamples *)

Open Scope Z_scope.
@thm c87_refuted
@thm c87_twice_refuted
@assume

(** ** The hypotheses can be met *)

(** The funicular with the force of its deviation edge as variable, at most 2 below and 3
    above, and a solver that goes to the upper bound and back *)
Example C87_nonvacuous :
  let p := mkParam (EdgeSlot (1, 2) AForce) (Some 2%R) (Some (-3)%R) in
  let o := after_calls [AddParameter p; AddConstraint (mkConstraint (LengthGoal (0, 1) 2%R) 3%R)] in
  obtained o /\ keys_in_range o /\ NoDup (addressed o) /\ respects_bounds Rle up_and_back
  /\ In (0, p) (o_params o) /\ (exists v, quantity funicular (p_slot p) = Ok v)
  /\ exists d', solved o 2 funicular d'.
Proof.
  cbn zeta. set (o := after_calls _). assert (M : obtained o) by (apply c68_obtained; eexists; reflexivity).
  split; [exact M|]. split.
  { intros k I. change (number_of_parameters o) with 1. change (dkeys (o_params o)) with [0] in I. destruct I as [<-|[]]. lia. }
  split; [repeat constructor; intros []|].
  split; [apply up_and_back_respects|]. split; [now left|]. split; [eexists; lazy; reflexivity|].
  set (run := fun d => solve (fun _ x => eret x) up_and_back "SLSQP" "FD" 1%R 100 None None 100 1%R (o, d)).
  exists (snd (fst (run (snd (fst (run funicular)))))).
  assert (G : forall n d d1, solved o n d d1 -> solved o (S n) d (snd (fst (run d1)))).
  { intros n d d1 S. destruct (run d1) as [[o2 d2] r] eqn:E. exact (solved_again o n d d1 d2 o o2 _ _ _ _ _ _ _ _ _ _ r S M eq_refl up_and_back_respects E). }
  apply G, G. constructor.
Qed.
