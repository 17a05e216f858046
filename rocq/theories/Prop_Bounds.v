(** * Properties of bounds (C87)

    Generated by tools/gen_props.py from the lemmas of BoundThms.v and WitnessBounds.v.
    The vocabulary is in SpecBounds.v and SpecOptimizer.v. *)

From Coq Require Import String List ZArith Bool Lia Floats Reals Lra.
From Verif Require Import Py PyFacts Num Diagram Topology History Equilibrium EquilibriumNp Constraints Optimizer SpecOptimizer SpecBounds
  Fixtures SpecDiagram OptFacts OptThms ReportThms BoundThms RVec Witness WitnessEq WitnessOpt WitnessBounds.
Import ListNotations.
Open Scope R_scope.

(** If no two parameters address the same quantity, their keys are 0, ..., n - 1, and
  the solver respects bounds, then whatever the run gives or raises, every quantity
  stays within the bounds of its parameter, and the others stay what they were. *)
Theorem C87_bounds_partial : forall ad solver algorithm grad h iters eps kappa tmax eta (o : optimizer R) d o' d' r,
  obtained o -> keys_in_range o -> NoDup (addressed o) -> respects_bounds Rle solver ->
  solve ad solver algorithm grad h iters eps kappa tmax eta (o, d) = ((o', d'), r) ->
  same_except (addressed o) d d'
  /\ forall k p v, In (k, p) (o_params o) -> quantity d (p_slot p) = Ok v ->
     exists q, quantity d' (p_slot p) = Ok q /\ allowed p v q.
Proof. exact c87_bounds_partial. Qed.
(** The optimum reported lies within the bounds as well, one component per parameter. *)
Theorem C87_reported_partial : forall ad solver algorithm grad h iters eps kappa tmax eta (o : optimizer R) d o' d' form,
  obtained o -> keys_in_range o -> NoDup (addressed o) -> respects_bounds Rle solver ->
  solve ad solver algorithm grad h iters eps kappa tmax eta (o, d) = ((o', d'), Ok form) ->
  o' = o
  \/ exists x, o_x o' = Some x /\ Z.of_nat (List.length x) = number_of_parameters o
     /\ forall k p, In (k, p) (o_params o) -> exists v q, quantity d (p_slot p) = Ok v /\ aget x k = Ok q /\ allowed p v q.
Proof. exact c87_reported_partial. Qed.
(** Bounds are taken from the diagram each time: after [n] runs a quantity stays within
  [n] times the bounds of its parameter. *)
Theorem C87_repeated_partial : forall o n d d', keys_in_range o -> NoDup (addressed o) -> solved o n d d' ->
  same_except (addressed o) d d'
  /\ forall k p v, In (k, p) (o_params o) -> quantity d (p_slot p) = Ok v ->
     exists q, quantity d' (p_slot p) = Ok q /\ allowed_times n p v q.
Proof. exact c87_repeated_partial. Qed.
Print Assumptions C87_bounds_partial.
Print Assumptions C87_reported_partial.
Print Assumptions C87_repeated_partial.

(** ** Counterexamples *)

Open Scope Z_scope.
(** Two parameters of the same quantity: the force of an edge was 1, one of its parameters
  allows it to change by 1/4, the solver respects the bounds, and the force becomes 3/2. *)
Theorem C87_refuted : exists solver o (d : diagram float) o' d' form p,
  reachable d /\ obtained o /\ keys_in_range o /\ respects_bounds below solver
  /\ solve no_ad solver "SLSQP" "FD" 0x1p-20%float 100 None None 100 neps6 (o, d) = ((o', d'), Ok form)
  /\ In (0, p) (o_params o) /\ p_up p = Some 0x1p-2%float
  /\ quantity d (p_slot p) = Ok 1%float /\ quantity d' (p_slot p) = Ok 0x1.8p0%float.
Proof. exact c87_refuted. Qed.
(** Solving twice: the force was 1, its only parameter allows it to change by 1/4, and it
  becomes 3/2. *)
Theorem C87_twice_refuted : exists solver o (d : diagram float) o1 d1 form1 o2 d2 form2 p,
  reachable d /\ obtained o /\ keys_in_range o /\ NoDup (addressed o) /\ respects_bounds below solver
  /\ solve no_ad solver "SLSQP" "FD" 0x1p-20%float 100 None None 100 neps6 (o, d) = ((o1, d1), Ok form1)
  /\ solve no_ad solver "SLSQP" "FD" 0x1p-20%float 100 None None 100 neps6 (o1, d1) = ((o2, d2), Ok form2)
  /\ In (0, p) (o_params o) /\ p_up p = Some 0x1p-2%float
  /\ quantity d (p_slot p) = Ok 1%float /\ quantity d2 (p_slot p) = Ok 0x1.8p0%float.
Proof. exact c87_twice_refuted. Qed.
Print Assumptions C87_refuted.
Print Assumptions C87_twice_refuted.

(** ** The hypotheses can be met *)

(** The funicular with the force of its deviation edge as variable, at most 2 below and 3
    above, and a solver that goes to the upper bound and back *)
Example C87_nonvacuous :
  let p := mkParam (EdgeSlot (1, 2) AForce) (Some 2%R) (Some (-3)%R) in
  let o := after_calls [AddParameter p; AddConstraint (mkConstraint (LengthGoal (0, 1) 2%R) 3%R)] in
  obtained o /\ keys_in_range o /\ NoDup (addressed o) /\ respects_bounds Rle up_and_back
  /\ In (0, p) (o_params o) /\ (exists v, quantity funicular (p_slot p) = Ok v)
  /\ exists d', solved o 2 funicular d'.
Proof.
  cbn zeta. set (o := after_calls _). assert (M : obtained o) by (apply c68_obtained; eexists; reflexivity).
  split; [exact M|]. split.
  { intros k I. change (number_of_parameters o) with 1. change (dkeys (o_params o)) with [0] in I. destruct I as [<-|[]]. lia. }
  split; [repeat constructor; intros []|].
  split; [apply up_and_back_respects|]. split; [now left|]. split; [eexists; lazy; reflexivity|].
  set (run := fun d => solve (fun _ x => eret x) up_and_back "SLSQP" "FD" 1%R 100 None None 100 1%R (o, d)).
  exists (snd (fst (run (snd (fst (run funicular)))))).
  assert (G : forall n d d1, solved o n d d1 -> solved o (S n) d (snd (fst (run d1)))).
  { intros n d d1 S. destruct (run d1) as [[o2 d2] r] eqn:E. exact (solved_again o n d d1 d2 o o2 _ _ _ _ _ _ _ _ _ _ r S M eq_refl up_and_back_respects E). }
  apply G, G. constructor.
Qed.
