(** * Properties of optimization (C44-C47, C52-C54, C68, C69)

    Generated by tools/gen_props.py from the lemmas of OptFacts.v, OptThms.v,
    SolveThms.v, ReportThms.v and WitnessOpt.v.  The vocabulary is in SpecOptimizer.v. *)

From Coq Require Import String List ZArith Bool Lia Floats Reals Lra Sorted.
From Verif Require Import Py PyFacts Num Diagram Topology Equilibrium EquilibriumNp History Fixtures SpecDiagram Constraints Optimizer
  SpecConstraints SpecOptimizer OptFacts OptThms SolveThms ReportThms NpThms RVec Witness WitnessEq WitnessNp WitnessOpt.
Import ListNotations.

Section Generic.
  Context {T : Type} `{NumOps T}.
  Implicit Types (d : diagram T) (o : optimizer T).
  Open Scope Z_scope.

  (** ** Variables *)

  @thm c45_frame
  @thm c45_objective_frame
  @thm c45_round_trip
  @thm c45_idle
  @thm c46_objective
  @thm c46_solver
  @thm c47_forward_differences
  @thm c47_component
  @thm c47_objective_gradient
  @thm c52_variables_partial
  @thm c52_added_partial

  (** ** Solving *)

  @thm c53_empty_problem
  @thm c53_unknown_gradient
  @thm c53_unknown_algorithm
  @thm c54_last_point_partial
  @thm c54_roundoff
  @thm c69_problem
  @thm c69_unique
  @thm c69_accepted
  @thm c69_results
  @thm c69_autodiff
  @thm c69_proxy

  (** ** Bookkeeping *)

  @thm c68_held
  @thm c68_raises
  @thm c68_obtained
End Generic.
@assume

(** ** Over the real numbers *)

Open Scope R_scope.
@thm c44_bounds
@thm c44_solver
@thm c46_value
@thm c47_affine
@assume
Close Scope R_scope.

(** ** Counterexamples *)

Open Scope Z_scope.
@thm c52_refuted
@thm c52_replaced_refuted
@thm c54_refuted
@thm c54_settings_refuted
@assume

(** ** The hypotheses can be met *)

(** Two bounds around the force of the deviation edge of the funicular *)
Example C44_nonvacuous : exists x, quantity funicular (p_slot (mkParam (EdgeSlot (1, 2) AForce) (Some 2%R) (Some (-3)%R))) = Ok x.
Proof. eexists. lazy. reflexivity. Qed.

(** The braced tower with four variables of different kinds *)
Example C45_nonvacuous : obtained tower_optimizer /\ keys_in_range tower_optimizer /\ NoDup (addressed tower_optimizer)
  /\ (forall s, In s (addressed tower_optimizer) -> present float_tower s)
  /\ Z.of_nat (List.length [1; 2; 3; 4]%float) = number_of_parameters tower_optimizer.
Proof.
  split; [apply tower_obtained|]. split; [apply tower_keys|]. split; [apply tower_distinct|]. split; [apply tower_present|].
  vm_compute. reflexivity.
Qed.

(** The objective is defined at two points and differs. *)
Example C46_nonvacuous : exists y z, objective tower_optimizer 100 neps6 float_tower [1; -1; 0; 2]%float = Ok y
  /\ objective tower_optimizer 100 neps6 float_tower [0x1.8p0; -1; 0x1p-2; 2]%float = Ok z /\ PrimFloat.eqb y z = false.
Proof. eexists. eexists. split; [vm_compute; reflexivity|]. split; vm_compute; reflexivity. Qed.

(** The solver that goes back passes arrays of the right size. *)
Example C46_solver_nonvacuous : forall pr, well_sized (Z.to_nat (number_of_parameters tower_optimizer)) (goes_back pr [1; -1; 0; 2]%float).
Proof. intros pr. apply ws_eval; [reflexivity|now left|]. intros y g. apply ws_eval; [reflexivity|now left|]. intros y' g'. now apply ws_return. Qed.

(** The gradient of the objective exists. *)
Example C47_nonvacuous : exists ds, forward_differences (objective tower_optimizer 100 neps6 float_tower) 0x1p-20%float [1; -1; 0; 2]%float = Ok ds.
Proof. eexists. vm_compute. reflexivity. Qed.

(** An affine function of two variables *)
Example C47_affine_nonvacuous : exists g : list R -> res R, forall y, List.length y = List.length [5; 6]%R ->
  g y = Ok (1 + rsum (map (fun ax => fst ax * snd ax) (combine [2; 3] y)))%R.
Proof. exists (fun y => Ok (1 + rsum (map (fun ax => fst ax * snd ax) (combine [2; 3] y)))%R). reflexivity. Qed.

(** A well-posed problem with an unknown algorithm *)
Example C53_nonvacuous : 0 < number_of_parameters tower_optimizer /\ 0 < number_of_constraints tower_optimizer
  /\ ~ In "COBYLA"%string ["SLSQP"; "LBFGS"; "MMA"; "TNEWTON"; "AUGLAG"; "VAR"]%string.
Proof. split; [vm_compute; reflexivity|]. split; [vm_compute; reflexivity|]. cbn. intuition discriminate. Qed.

(** Solving succeeds when the solver stops on roundoff errors. *)
Example C54_nonvacuous : exists o' d' form ys loss,
  solver_run no_ad rounds tower_optimizer float_tower "LBFGS" "FD" 0x1p-20%float 100 None None 100 neps6
    = Ok (ys ++ [elsewhere [1; -1; 0; 2]%float], Ok (ARoundoff loss 2 (-4)))
  /\ solve no_ad rounds "LBFGS" "FD" 0x1p-20%float 100 None None 100 neps6 (tower_optimizer, float_tower) = ((o', d'), Ok form).
Proof.
  eexists. eexists. eexists. exists [[1; -1; 0; 2]%float]. eexists. split; vm_compute; reflexivity.
Qed.

(** The funicular with the force of its deviation edge as variable and a length as goal *)
Example C46_value_nonvacuous : exists (o : optimizer R) x d' st, obtained o
  /\ update_parameters o x funicular = (d', Ok tt) /\ equilibrium_state_numpy d' 1 (/ 1000000)%R false = Ok st
  /\ (forall k c, In (k, c) (o_cons o) -> has_direction st (c_goal c)) /\ number_of_constraints o = 1.
Proof.
  set (o := after_calls [AddParameter (mkParam (EdgeSlot (1, 2) AForce) None None); AddConstraint (mkConstraint (LengthGoal (0, 1) 2%R) 3%R)]).
  assert (F : exists f, edge_force funicular (1, 2) = Ok f) by (eexists; lazy; reflexivity). destruct F as [f F].
  destruct funicular_sound as (form&E&S).
  assert (N := c41_direct funicular _ _ funicular_reachable funicular_ready (proj1 funicular_direct) E S 1 (/ 1000000)%R false).
  rewrite E in N. apply numpy_state in N as [st N].
  exists o, [f], funicular, st. split; [apply c68_obtained; eexists; reflexivity|].
  split; [|split; [exact N|split; [|reflexivity]]].
  - apply c45_idle; [apply c68_obtained; eexists; reflexivity|]. unfold optimization_parameters. change (o_params o) with [(0, @mkParam R (EdgeSlot (1, 2) AForce) None None)].
    cbn [fold_res fst snd List.length repeat]. rewrite start_quantity. cbn [p_slot quantity]. rewrite F. reflexivity.
  - intros k c [I|[]]. injection I as <- <-. exact I.
Qed.

(** Two parameters and a constraint, one parameter removed *)
Example C68_nonvacuous : let cs := [AddParameter (mkParam (T := float) (EdgeSlot (1, 4) AForce) None None);
    AddConstraint (mkConstraint (LengthGoal (0, 1) 2%float) 3%float); AddParameter (mkParam (NodeSlot 5 AY) None None); RemoveParameter 0] in
  kept_parameter cs 1 (mkParam (NodeSlot 5 AY) None None) /\ o_params (after_calls cs) = [(1, mkParam (NodeSlot 5 AY) None None)]
  /\ snd (perform (RemoveParameter 0) (after_calls cs)) = Err KeyError.
Proof.
  cbn zeta. split; [|split; reflexivity]. eexists [_; _], [_]. split; [reflexivity|]. split; [reflexivity|].
  intros [E|[]]. discriminate E.
Qed.

(** The solver that goes back is called with arrays of the right size, and its result is reported. *)
Example C69_nonvacuous : forall pr x, as_requested tower_optimizer float_tower "MMA" 100 None (Some neps6) pr x ->
  well_sized (List.length x) (goes_back pr x).
Proof.
  intros pr x A. assert (L := ar_x _ _ _ _ _ _ _ _ A). change (number_of_parameters tower_optimizer) with 4 in L.
  assert (L' : List.length x = 4%nat) by lia. rewrite L'.
  apply ws_eval; [exact L'|now left|]. intros y g. apply ws_eval; [unfold elsewhere; now rewrite map_length|now left|]. intros y' g'. now apply ws_return.
Qed.
Example C69_autodiff_nonvacuous :
  differentiates (fun f x => grad_finite_differences f 0x1p-20%float x (repeat n0 (List.length x))) tower_optimizer 100 neps6 float_tower
    (forward_differences (objective tower_optimizer 100 neps6 float_tower) 0x1p-20%float)
  /\ exists g, forward_differences (objective tower_optimizer 100 neps6 float_tower) 0x1p-20%float [1; -1; 0; 2]%float = Ok g
     /\ List.length g = 4%nat.
Proof. split; [apply differences_differentiate|]. eexists. split; vm_compute; reflexivity. Qed.
Example C69_goes_back : exists o' d' form,
  solve no_ad goes_back "MMA" "FD" 0x1p-20%float 100 None (Some neps6) 100 neps6 (tower_optimizer, float_tower) = ((o', d'), Ok form)
  /\ o_x o' = Some [1; -1; 0; 2]%float /\ o_status o' = Some "NLOPT_SUCCESS"%string /\ o_evals o' = Some 2.
Proof. do 3 eexists. split; [vm_compute; reflexivity|]. split; [|split]; vm_compute; reflexivity. Qed.
