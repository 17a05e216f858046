(** * Properties of solving in another process (C93)

    Generated by tools/gen_props.py from the lemmas of RemoteThms.v and WitnessRemote.v.
    The vocabulary is in SpecRemote.v. *)

From Coq Require Import String List ZArith Bool Floats.
From Verif Require Import Py PyFacts Num Diagram Topology History Equilibrium EquilibriumNp Fixtures SpecDiagram Constraints Optimizer SpecOptimizer
  Serialize SpecSerialize Files SpecFiles FilesThms Remote SpecRemote RemoteThms Witness WitnessEq WitnessOpt WitnessRemote.
Import ListNotations.
Open Scope Z_scope.

Section Generic.
  Context {T : Type} `{NumOps T}.

  (** Missing: targets given as plain lists or tuples of coordinates, infinite numbers, and asking the
      returned topology for a trail by its key (the full statement is refuted below).  Solving in
      another process gives the results of solving in this one: the same objective, norm of the
      gradient, number of evaluations and status, the same form, and a topology with the same contents
      that has the same forms.  If solving raises, it raises the same exception. *)
  Theorem C93_solution_partial : forall ad solver d constraints ps algorithm iters h eps kappa tmax eta,
    only_calls ad -> Forall usable constraints -> Forall can_travel constraints ->
    match local_solve ad solver d constraints (map parameter_object ps) algorithm iters h eps kappa tmax eta with
    | Ok (d', form, r) => exists topology,
        remote_solve ad solver d constraints (map parameter_object ps) algorithm iters h eps kappa tmax eta = Ok (topology, in_memory form, r)
        /\ same_contents topology d' /\ same_forms topology d'
    | Err e => remote_solve ad solver d constraints (map parameter_object ps) algorithm iters h eps kappa tmax eta = Err e
    end.
  Proof. exact c93_solution_partial. Qed.
  (** Every constraint and parameter is an object of its class that means what was given; a target in
      plain coordinates means the same as a compas object.  No other object means it. *)
  Theorem C93_objects : (forall c : constraint T, goal_of (goal_object c) = Ok c /\ goal_of (plainly (goal_object c)) = Ok c)
    /\ (forall p : parameter T, parameter_of (parameter_object p) = Ok p)
    /\ (forall x (c : constraint T), goal_of x = Ok c -> x = goal_object c \/ x = plainly (goal_object c))
    /\ forall x (p : parameter T), parameter_of x = Ok p -> x = parameter_object p.
  Proof. exact c93_objects. Qed.
  (** The numbers and the status are those of the optimizer after [solve] with automatic
      differentiation, given the constraints and then the parameters in their order. *)
  Theorem C93_results : forall ad solver d constraints parameters algorithm iters h eps kappa tmax eta d' form objective norm evals status,
    local_solve ad solver d constraints parameters algorithm iters h eps kappa tmax eta = Ok (d', form, (objective, norm, evals, status)) ->
    exists goals slots o', Forall2 (fun c goal => goal_of c = Ok goal) constraints goals
      /\ Forall2 (fun p slot => parameter_of p = Ok slot) parameters slots
      /\ solve (ad (diagram T)) solver algorithm "AD" h iters eps kappa tmax eta
           (after_calls (map AddConstraint goals ++ map AddParameter slots), d) = ((o', d'), Ok form)
      /\ o_penalty o' = objective /\ o_norm o' = norm /\ o_evals o' = evals /\ o_status o' = status.
  Proof. exact c93_results. Qed.
  (** A constraint that cannot travel makes solving in another process raise, whatever else is given. *)
  Theorem C93_stuck : forall ad solver d constraints parameters algorithm iters h eps kappa tmax eta c,
    In c constraints -> usable c -> ~ can_travel c ->
    exists e, remote_solve ad solver d constraints parameters algorithm iters h eps kappa tmax eta = Err e.
  Proof. exact c93_stuck. Qed.
  (** The topology that comes back has no trail with an integer key. *)
  Theorem C93_lost : forall ad solver d constraints parameters algorithm iters h eps kappa tmax eta topology form r key,
    remote_solve ad solver d constraints parameters algorithm iters h eps kappa tmax eta = Ok (topology, form, r) ->
    only_calls ad -> o_trail topology key = Err KeyError.
  Proof. exact c93_lost. Qed.
End Generic.
Print Assumptions C93_solution_partial.
Print Assumptions C93_objects.
Print Assumptions C93_results.
Print Assumptions C93_stuck.
Print Assumptions C93_lost.

(** The full statement of C93 is false.  The same problem with the coordinates of a point as target is
  solved here but raises in another process; and where both end, the topology solved here can be
  asked for a trail and the one that comes back cannot. *)
Theorem C93_refuted :
  (exists ad solver (d : diagram float) constraints ps algorithm iters h tmax eta r,
     only_calls ad /\ reachable d /\ Forall usable constraints
     /\ local_solve ad solver d constraints (map parameter_object ps) algorithm iters h None None tmax eta = Ok r
     /\ remote_solve ad solver d constraints (map parameter_object ps) algorithm iters h None None tmax eta = Err AttributeError)
  /\ (exists ad solver (d : diagram float) constraints ps algorithm iters h tmax eta d' form r topology form' r' key,
     only_calls ad /\ reachable d /\ Forall usable constraints /\ Forall can_travel constraints
     /\ local_solve ad solver d constraints (map parameter_object ps) algorithm iters h None None tmax eta = Ok (d', form, r)
     /\ remote_solve ad solver d constraints (map parameter_object ps) algorithm iters h None None tmax eta = Ok (topology, form', r')
     /\ trail d' key = Ok [2; 1; 0] /\ o_trail topology key = Err KeyError).
Proof. exact c93_refuted. Qed.
Print Assumptions C93_refuted.

(** ** The hypotheses can be met *)

(** The braced tower with four parameters and two constraints is solved here and in another
    process; the gradient is found by evaluating the objective next to the point.  With a
    target that cannot travel, the constraint is usable all the same. *)
Example C93_nonvacuous : only_calls differences
  /\ Forall usable tower_goals /\ Forall can_travel tower_goals
  /\ (exists r, local_solve differences goes_back float_tower tower_goals (map parameter_object tower_parameters) "SLSQP" 100 0x1p-20%float None None 100 neps6 = Ok r)
  /\ (exists r, remote_solve differences goes_back float_tower tower_goals (map parameter_object tower_parameters) "SLSQP" 100 0x1p-20%float None None 100 neps6 = Ok r)
  /\ exists c, In c tower_plain /\ usable c /\ ~ can_travel c.
Proof.
  split; [apply differences_only_call|]. split; [repeat constructor; eexists; vm_compute; reflexivity|].
  split; [repeat constructor; vm_compute; reflexivity|].
  split; [apply ended_ok, tower_solved|]. split; [apply ended_ok, tower_solved|].
  eexists. split; [left; reflexivity|]. split; [eexists; reflexivity|]. intros [].
Qed.
