(** * Properties of constraints met by a form, and of topologies after solving (C91, C92, C105)

    Generated by tools/gen_props.py from the lemmas of HandThms.v, MetThms.v,
    WitnessMet.v and WitnessBounds.v.  The vocabulary is in SpecMet.v, SpecHand.v and
    SpecBounds.v. *)

From Coq Require Import String List ZArith Bool Lia Floats Reals Lra.
From Verif Require Import Py PyFacts Num Diagram DiagramFacts Topology History HistoryFacts Fixtures SpecDiagram Equilibrium EquilibriumNp Constraints Optimizer
  SpecEquilibrium SpecStatics SpecConstraints SpecOptimizer SpecNumpy SpecMet RVec FormFacts EqThms StaticsThms NpThms OptFacts OptThms SolveThms ReportThms
  SpecHand HandThms MetThms Witness WitnessEq WitnessNp WitnessOpt WitnessMet SpecBounds WitnessBounds.
Import ListNotations.

(** ** Topologies after solving *)

Open Scope Z_scope.

Section Hand.
  Context {T : Type} `{NumOps T}.
  Implicit Types (d : diagram T) (o : optimizer T).

(** However solving ends, the topology is what a history of calls that set the
    parameters' quantities by hand would have made of it. *)
Theorem C92_by_hand : forall ad solver algorithm grad h iters eps kappa tmax eta o d o' d' r,
    solve ad solver algorithm grad h iters eps kappa tmax eta (o, d) = ((o', d'), r) ->
    exists ops, Forall (sets (addressed o)) ops /\ d' = run d ops.
Proof. exact c92_by_hand. Qed.
(** Likewise for a single evaluation of the objective. *)
Theorem C92_evaluation : forall o tmax eta x d, exists ops, Forall (sets (addressed o)) ops /\ fst (optimize_form o tmax eta x d) = run d ops.
Proof. exact c92_evaluation. Qed.
(** A topology built by calls of the API is one afterwards, is ready for form finding
    if it was, and its deviation edges are direct if they were. *)
Theorem C92_still_built : forall ad solver algorithm grad h iters eps kappa tmax eta o d o' d' r, reachable d ->
    solve ad solver algorithm grad h iters eps kappa tmax eta (o, d) = ((o', d'), r) ->
    reachable d' /\ (ready d -> ready d') /\ (direct_only d -> direct_only d').
Proof. exact c92_still_built. Qed.
(** However solving ends, every location finds what it found before. *)
Theorem C105_lookup_partial : forall ad solver algorithm grad h iters eps kappa tmax eta o d o' d' r,
    solve ad solver algorithm grad h iters eps kappa tmax eta (o, d) = ((o', d'), r) ->
    forall p, node_key d' (RXyz p) = node_key d (RXyz p).
Proof. exact c105_lookup_partial. Qed.
(** A node whose coordinates are no parameters stays where it is and is found there if it was. *)
Theorem C105_still_partial : forall ad solver algorithm grad h iters eps kappa tmax eta o d o' d' r n p,
    solve ad solver algorithm grad h iters eps kappa tmax eta (o, d) = ((o', d'), r) ->
    (forall a, In a [AX; AY; AZ] -> ~ In (NodeSlot n a) (addressed o)) ->
    node_coordinates d n = Ok p -> node_key d (RXyz p) = Some n ->
    node_coordinates d' n = Ok p /\ node_key d' (RXyz p) = Some n.
Proof. exact c105_still_partial. Qed.
End Hand.

(** ** Constraints *)

Open Scope R_scope.

(** The objective is the sum of the weights times the squares of how far the form found
  with the variables is from the goals. *)
Theorem C91_value : forall (o : optimizer R) tmax eta d x d' form v,
  reachable d -> update_parameters o x d = (d', Ok tt) -> static_equilibrium_numpy d' tmax eta false = Ok form ->
  objective o tmax eta d x = Ok v ->
  (forall k c, In (k, c) (o_cons o) -> form_directed form (c_goal c)) ->
  exists ys, Forall2 (fun kc y => form_deviates form (c_goal (snd kc)) y) (o_cons o) ys
    /\ v = rsum (map (fun cy => c_weight (snd (fst cy)) * (snd cy * snd cy)) (combine (o_cons o) ys)).
Proof. exact c91_value. Qed.
(** If no weight is negative, a goal is missed by no more than the objective allows. *)
Theorem C91_small : forall (o : optimizer R) tmax eta d x d' form v,
  reachable d -> update_parameters o x d = (d', Ok tt) -> static_equilibrium_numpy d' tmax eta false = Ok form ->
  objective o tmax eta d x = Ok v ->
  (forall k c, In (k, c) (o_cons o) -> form_directed form (c_goal c) /\ 0 <= c_weight c) ->
  forall k c, In (k, c) (o_cons o) -> exists y, form_deviates form (c_goal c) y /\ 0 <= c_weight c * (y * y) <= v.
Proof. exact c91_small. Qed.
(** With positive weights the objective is not negative, and it is zero exactly when the
  form found with the variables meets all the goals. *)
Theorem C91_zero : forall (o : optimizer R) tmax eta d x d' form v,
  reachable d -> update_parameters o x d = (d', Ok tt) -> static_equilibrium_numpy d' tmax eta false = Ok form ->
  objective o tmax eta d x = Ok v ->
  (forall k c, In (k, c) (o_cons o) -> form_directed form (c_goal c) /\ 0 < c_weight c) ->
  0 <= v /\ (v = 0 <-> forall k c, In (k, c) (o_cons o) -> form_meets form (c_goal c)).
Proof. exact c91_zero. Qed.
(** After a successful solve of a direct, sound topology the objective at the last point
  the solver evaluated tells how far the returned form is from the goals: it is zero
  exactly when the form meets them all, and bounds every deviation. *)
Theorem C91_solved_partial : forall ad solver algorithm grad h iters eps kappa tmax eta (o : optimizer R) d o' d' form ys y a,
  reachable d -> ready d -> direct_only d ->
  solver_run ad solver o d algorithm grad h iters eps kappa tmax eta = Ok (ys ++ [y], Ok a) ->
  solve ad solver algorithm grad h iters eps kappa tmax eta (o, d) = ((o', d'), Ok form) ->
  form_is_sound d' form ->
  (forall k c, In (k, c) (o_cons o) -> form_directed form (c_goal c) /\ 0 < c_weight c) ->
  exists v, objective o tmax eta d y = Ok v /\ 0 <= v
    /\ (v = 0 <-> forall k c, In (k, c) (o_cons o) -> form_meets form (c_goal c))
    /\ forall k c, In (k, c) (o_cons o) -> exists x, form_deviates form (c_goal c) x /\ c_weight c * (x * x) <= v.
Proof. exact c91_solved_partial. Qed.

(** ** Counterexamples *)

Open Scope Z_scope.
(** Solve can report that the constraints are met, and return a form that misses the
  target of a node by more than an eighth of a unit: the form is not the one of the
  reported optimum. *)
Theorem C91_refuted : exists solver o (d : diagram float) o' d' form n target p,
  reachable d /\ obtained o
  /\ solve no_ad solver "SLSQP" "FD" 0x1p-20%float 100 None None 100 neps6 (o, d) = ((o', d'), Ok form)
  /\ (exists w, o_cons o = [(0, mkConstraint (PointGoal n target) w)]) /\ o_penalty o' = Some 0%float
  /\ node_coordinates form n = Ok p /\ PrimFloat.ltb 0x1p-3 (PrimFloat.abs (vx p - vx target))%float = true.
Proof. exact c91_refuted. Qed.
(** A node that was found at its location and is moved by the optimizer is not found at
  its new location, but still at the old one. *)
Theorem C105_refuted : exists solver o (d : diagram float) o' d' form n p p',
  reachable d /\ obtained o /\ keys_in_range o /\ NoDup (addressed o) /\ respects_bounds below solver
  /\ solve no_ad solver "SLSQP" "FD" 0x1p-20%float 100 None None 100 neps6 (o, d) = ((o', d'), Ok form)
  /\ node_coordinates d n = Ok p /\ node_key d (RXyz p) = Some n
  /\ node_coordinates d' n = Ok p' /\ node_key d' (RXyz p') = None /\ node_key d' (RXyz p) = Some n.
Proof. exact c105_refuted. Qed.
(** An edge that is then drawn from the node's location starts at another node in the same place. *)
Theorem C105_twice_refuted : exists solver o (d : diagram float) o' d' form n k p' q,
  reachable d /\ obtained o /\ keys_in_range o /\ NoDup (addressed o) /\ respects_bounds below solver
  /\ solve no_ad solver "SLSQP" "FD" 0x1p-20%float 100 None None 100 neps6 (o, d) = ((o', d'), Ok form)
  /\ node_coordinates d' n = Ok p'
  /\ let d2 := run d' [OpAddEdge (RXyz p') (RXyz q) (DeviationEdge 1%float)] in
     k <> n /\ ~ In k (nodes d') /\ node_coordinates d2 k = Ok p' /\ node_coordinates d2 n = Ok p'.
Proof. exact c105_twice_refuted. Qed.
Print Assumptions C92_by_hand.
Print Assumptions C92_evaluation.
Print Assumptions C92_still_built.
Print Assumptions C105_lookup_partial.
Print Assumptions C105_still_partial.
Print Assumptions C91_value.
Print Assumptions C91_small.
Print Assumptions C91_zero.
Print Assumptions C91_solved_partial.
Print Assumptions C91_refuted.
Print Assumptions C105_refuted.
Print Assumptions C105_twice_refuted.

(** ** The hypotheses can be met *)

(** The funicular, solved for two goals by a solver that evaluates the start: whatever the
    target of the support, all hypotheses hold, and the support is at a target of its own. *)
Example C91_nonvacuous : forall p, exists form f v o',
  reachable funicular /\ ready funicular /\ direct_only funicular
  /\ solver_run no_ad_R stays_R (target_optimizer p) funicular "SLSQP" "AD" 1%R 100 None None 100 neps6 = Ok ([] ++ [[f]], Ok (AReturn [f] v 1 1))
  /\ solve no_ad_R stays_R "SLSQP" "AD" 1%R 100 None None 100 neps6 (target_optimizer p, funicular) = ((o', funicular), Ok form)
  /\ form_is_sound funicular form
  /\ forall k c, In (k, c) (o_cons (target_optimizer p)) -> form_directed form (c_goal c) /\ (0 < c_weight c)%R.
Proof.
  intros p. destruct (funicular_solved p) as (form&f&v&o'&A&B&C). exists form, f, v, o'.
  split; [apply funicular_reachable|]. split; [apply funicular_ready|]. split; [apply funicular_direct|].
  split; [exact A|]. split; [exact B|]. split; [exact C|]. exact (funicular_target p form C).
Qed.

(** The tower is built by calls of the API, and solving changes it. *)
Example C92_nonvacuous : reachable float_tower
  /\ let r := solve no_ad goes_back "SLSQP" "FD" 0x1p-20%float 100 None None 100 neps6 (tower_optimizer, float_tower) in
     (exists form, snd r = Ok form) /\ edge_force float_tower (1, 5) = Ok 1%float /\ edge_force (snd (fst r)) (1, 5) = Ok 0x1.8p0%float.
Proof.
  split; [apply float_tower_reachable|]. split; [eexists; vm_compute; reflexivity|]. split; vm_compute; reflexivity.
Qed.

(** An evaluation that raises changes the tower, too: the array of variables is too short. *)
Example C92_raises_nonvacuous :
  let r := optimize_form tower_optimizer 100 neps6 [3%float] float_tower in
  snd r = Err IndexError /\ edge_force (fst r) (1, 5) = Ok 3%float.
Proof. split; vm_compute; reflexivity. Qed.

(** Solving moves the node 2 of the tower; the node 5 stays and is found. *)
Example C105_nonvacuous :
  let r := solve no_ad climbs "SLSQP" "FD" 0x1p-20%float 100 None None 100 neps6 (moving_origin, float_tower) in
  (exists form, snd r = Ok form) /\ node_coordinates (snd (fst r)) 2 = Ok (V3 0x1p-2 2 0)%float
  /\ (forall a, In a [AX; AY; AZ] -> ~ In (NodeSlot 5 a) (addressed moving_origin))
  /\ node_coordinates float_tower 5 = Ok (V3 1 2 0)%float /\ node_key float_tower (RXyz (V3 1 2 0)%float) = Some 5.
Proof.
  split; [eexists; vm_compute; reflexivity|]. split; [vm_compute; reflexivity|].
  split; [intros a _ J; vm_compute in J; destruct J as [J|[]]; discriminate J|]. split; vm_compute; reflexivity.
Qed.
