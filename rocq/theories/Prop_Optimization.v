(** * Properties of optimization (C44-C47, C52-C54, C68, C69)

    Generated by tools/gen_props.py from the lemmas of OptFacts.v, OptThms.v,
    SolveThms.v, ReportThms.v and WitnessOpt.v.  The vocabulary is in SpecOptimizer.v. *)

From Coq Require Import String List ZArith Bool Lia Floats Reals Lra Sorted.
From Verif Require Import Py PyFacts Num Diagram Topology Equilibrium EquilibriumNp History Fixtures SpecDiagram Constraints Optimizer
  SpecConstraints SpecOptimizer OptFacts OptThms SolveThms ReportThms NpThms RVec Witness WitnessEq WitnessNp WitnessOpt.
Import ListNotations.

Section Generic.
  Context {T : Type} `{NumOps T}.
  Implicit Types (d : diagram T) (o : optimizer T).
  Open Scope Z_scope.

  (** ** Variables *)

  (** Writing variables into the diagram changes the addressed quantities and nothing
      else, even if it raises. *)
  Theorem C45_frame : forall o x d, same_except (addressed o) d (fst (update_parameters o x d)).
  Proof. exact c45_frame. Qed.
  (** Evaluating the objective does not change anything else either. *)
  Theorem C45_objective_frame : forall o tmax eta ys d, same_except (addressed o) d (after_evaluations o tmax eta ys d).
  Proof. exact c45_objective_frame. Qed.
  (** With the keys in range, writing a vector of variables and reading it back
      yields the vector. *)
  Theorem C45_round_trip : forall o x d, obtained o -> keys_in_range o -> NoDup (addressed o) ->
    (forall s, In s (addressed o) -> present d s) -> Z.of_nat (List.length x) = number_of_parameters o ->
    exists d', update_parameters o x d = (d', Ok tt) /\ optimization_parameters o d' = Ok x
      /\ forall k p, In (k, p) (o_params o) -> quantity d' (p_slot p) = aget x k.
  Proof. exact c45_round_trip. Qed.
  (** Writing the variables that were just read from a diagram does not change it. *)
  Theorem C45_idle : forall o d x, obtained o -> optimization_parameters o d = Ok x -> update_parameters o x d = (d, Ok tt).
  Proof. exact c45_idle. Qed.
  (** The objective value at a point does not depend on the points evaluated before,
      and neither does the diagram after a successful evaluation. *)
  Theorem C46_objective : forall o tmax eta ys x d,
    snd (optimize_form o tmax eta x (after_evaluations o tmax eta ys d)) = snd (optimize_form o tmax eta x d)
    /\ forall v, snd (optimize_form o tmax eta x d) = Ok v ->
       fst (optimize_form o tmax eta x (after_evaluations o tmax eta ys d)) = fst (optimize_form o tmax eta x d).
  Proof. exact c46_objective. Qed.
  (** Whatever points the external solver evaluates, in whatever order, it sees the
      values and the finite-difference gradients of one fixed function. *)
  Theorem C46_solver : forall o tmax eta h s d, well_sized (Z.to_nat (number_of_parameters o)) s ->
    snd (run_strategy (objective_function_numpy (optimize_form o tmax eta)
                         (grad_finite_differences (optimize_form o tmax eta) h)) s (d, d))
    = pure_run (objective o tmax eta d) (forward_differences (objective o tmax eta d) h) s.
  Proof. exact c46_solver. Qed.
  (** The finite-difference gradient of a function whose value depends on the
      variables only is the vector of forward differences; the object the function
      works on ends in a state it can be in. *)
  Theorem C47_forward_differences : forall (S : Type) (f : list T -> eff S T) (P : S -> Prop) (g : list T -> res T) h x grad s,
    (forall x s, P s -> snd (f x s) = g x /\ P (fst (f x s))) -> List.length grad = List.length x -> P s ->
    snd (grad_finite_differences f h x grad s) = forward_differences g h x
    /\ P (fst (grad_finite_differences f h x grad s)).
  Proof. exact c47_forward_differences. Qed.
  (** Each component is the forward difference in that component. *)
  Theorem C47_component : forall (g : list T -> res T) h x ds, forward_differences g h x = Ok ds ->
    List.length ds = List.length x
    /\ forall i v, nth_error ds i = Some v -> exists y0 y, g x = Ok y0 /\ g (bump x i h) = Ok y /\ v = ndiv (nsub y y0) h.
  Proof. exact c47_component. Qed.
  (** For the optimizer: the gradient at a point after any evaluations on the same
      diagram is that of the objective. *)
  Theorem C47_objective_gradient : forall o tmax eta h ys x grad d, List.length grad = List.length x ->
    snd (grad_finite_differences (optimize_form o tmax eta) h x grad (after_evaluations o tmax eta ys d))
    = forward_differences (objective o tmax eta d) h x.
  Proof. exact c47_objective_gradient. Qed.
  (** After any history, if the quantities exist, the optimizer produces one variable
      per remaining parameter exactly when the keys of the remaining parameters are
      below their number; otherwise it raises IndexError. *)
  Theorem C52_variables_partial : forall o d, obtained o -> (forall s, In s (addressed o) -> present d s) ->
    (keys_in_range o /\ exists x, optimization_parameters o d = Ok x
       /\ Z.of_nat (List.length x) = number_of_parameters o
       /\ forall k p, In (k, p) (o_params o) -> aget x k = quantity d (p_slot p))
    \/ (~ keys_in_range o /\ optimization_parameters o d = Err IndexError).
  Proof. exact c52_variables_partial. Qed.
  (** Parameters that were only ever added yield their start values in order. *)
  Theorem C52_added_partial : forall (cs : list (constraint T)) (ps : list (parameter T)) d, (forall p, In p ps -> exists v, quantity d (p_slot p) = Ok v) ->
    exists x, optimization_parameters (proxy_optimizer cs ps) d = Ok x
      /\ Forall2 (fun p v => quantity d (p_slot p) = Ok v) ps x.
  Proof. exact c52_added_partial. Qed.

  (** ** Solving *)

  (** Without parameters or constraints solve raises ValueError and changes nothing. *)
  Theorem C53_empty_problem : forall ad solver algorithm grad h iters eps kappa tmax eta o d,
    number_of_parameters o = 0 \/ number_of_constraints o = 0 ->
    exists msg, solve ad solver algorithm grad h iters eps kappa tmax eta (o, d) = ((o, d), Err (ValueError msg)).
  Proof. exact c53_empty_problem. Qed.
  (** An unknown gradient method raises ValueError and changes nothing. *)
  Theorem C53_unknown_gradient : forall ad solver algorithm grad h iters eps kappa tmax eta o d,
    grad <> "AD"%string -> grad <> "FD"%string ->
    exists msg, solve ad solver algorithm grad h iters eps kappa tmax eta (o, d) = ((o, d), Err (ValueError msg)).
  Proof. exact c53_unknown_gradient. Qed.
  (** An unknown algorithm raises and changes nothing; the exception is KeyError if
      the variables can be read. *)
  Theorem C53_unknown_algorithm : forall ad solver algorithm grad h iters eps kappa tmax eta o d,
    ~ In algorithm ["SLSQP"; "LBFGS"; "MMA"; "TNEWTON"; "AUGLAG"; "VAR"]%string ->
    exists e, solve ad solver algorithm grad h iters eps kappa tmax eta (o, d) = ((o, d), Err e)
      /\ (0 < number_of_parameters o -> 0 < number_of_constraints o -> grad = "AD"%string \/ grad = "FD"%string ->
          obtained o -> keys_in_range o -> (forall s, In s (addressed o) -> present d s) -> e = KeyError).
  Proof. exact c53_unknown_algorithm. Qed.
  (** The form is the one of the diagram at the last point the solver evaluated, found
      with the default settings; without evaluation it is the one of the given
      diagram.  x_opt is the point the solver returned, or the last evaluated one. *)
  Theorem C54_last_point_partial : forall ad solver algorithm grad h iters eps kappa tmax eta o d o' d' form,
    solve ad solver algorithm grad h iters eps kappa tmax eta (o, d) = ((o', d'), Ok form) ->
    static_equilibrium d' None 100 neps6 false = Ok form
    /\ same_except (addressed o) d d'
    /\ exists ys a, solver_run ad solver o d algorithm grad h iters eps kappa tmax eta = Ok (ys, Ok a)
      /\ (ys = [] -> d' = d)
      /\ (forall ys0 y, ys = ys0 ++ [y] -> update_parameters o y d = (d', Ok tt))
      /\ match a with
         | AReturn x loss evals _ => o_x o' = Some x /\ o_penalty o' = Some loss /\ o_evals o' = Some evals
         | ARoundoff loss evals _ => o_penalty o' = Some loss /\ o_evals o' = Some evals
             /\ exists x, optimization_parameters o d' = Ok x /\ o_x o' = Some x
         | ARuntime => o' = o
         end.
  Proof. exact c54_last_point_partial. Qed.
  (** If progress stopped on roundoff errors after an evaluation, x_opt is the last
      evaluated point and the form is that of x_opt, found with the default settings. *)
  Theorem C54_roundoff : forall ad solver algorithm grad h iters eps kappa tmax eta o d o' d' form ys0 y loss evals result,
    obtained o -> keys_in_range o -> NoDup (addressed o) -> (forall s, In s (addressed o) -> present d s) ->
    Z.of_nat (List.length y) = number_of_parameters o ->
    solver_run ad solver o d algorithm grad h iters eps kappa tmax eta = Ok (ys0 ++ [y], Ok (ARoundoff loss evals result)) ->
    solve ad solver algorithm grad h iters eps kappa tmax eta (o, d) = ((o', d'), Ok form) ->
    o_x o' = Some y /\ update_parameters o y d = (d', Ok tt) /\ static_equilibrium d' None 100 neps6 false = Ok form.
  Proof. exact c54_roundoff. Qed.
  (** Whatever the solver would do with another problem makes no difference. *)
  Theorem C69_problem : forall ad solver solver' algorithm grad h iters eps kappa tmax eta o d, obtained o ->
    (forall pr x, as_requested o d algorithm iters eps kappa pr x -> solver pr x = solver' pr x) ->
    solve ad solver algorithm grad h iters eps kappa tmax eta (o, d) = solve ad solver' algorithm grad h iters eps kappa tmax eta (o, d).
  Proof. exact c69_problem. Qed.
  (** The problem is determined by the request. *)
  Theorem C69_unique : forall o d algorithm iters eps kappa pr x pr' x', obtained o -> keys_in_range o ->
    as_requested o d algorithm iters eps kappa pr x -> as_requested o d algorithm iters eps kappa pr' x' -> pr' = pr /\ x' = x.
  Proof. exact c69_unique. Qed.
  (** A well-posed problem reaches the solver, whichever of the six algorithms is chosen. *)
  Theorem C69_accepted : forall ad algorithm grad h iters eps kappa tmax eta o d,
    obtained o -> keys_in_range o -> (forall s, In s (addressed o) -> present d s) ->
    0 < number_of_parameters o -> 0 < number_of_constraints o -> grad = "AD"%string \/ grad = "FD"%string ->
    In algorithm ["SLSQP"; "LBFGS"; "MMA"; "TNEWTON"; "AUGLAG"; "VAR"]%string ->
    exists pr x, as_requested o d algorithm iters eps kappa pr x
      /\ forall solver, solver pr x = SRuntime ->
         solve ad solver algorithm grad h iters eps kappa tmax eta (o, d) = ((o, d), static_equilibrium d None 100 neps6 false).
  Proof. exact c69_accepted. Qed.
  (** With finite differences, what the optimizer reports is what the solver answers when it is run on the objective and its
      forward differences, as functions of the variables alone. *)
  Theorem C69_results : forall ad solver algorithm h iters eps kappa tmax eta o d,
    obtained o -> keys_in_range o -> (forall s, In s (addressed o) -> present d s) ->
    0 < number_of_parameters o -> 0 < number_of_constraints o ->
    In algorithm ["SLSQP"; "LBFGS"; "MMA"; "TNEWTON"; "AUGLAG"; "VAR"]%string ->
    (forall pr x, as_requested o d algorithm iters eps kappa pr x -> well_sized (List.length x) (solver pr x)) ->
    exists pr x, as_requested o d algorithm iters eps kappa pr x
      /\ let F := objective o tmax eta d in
         let G := forward_differences F h in
         let r := solve ad solver algorithm "FD" h iters eps kappa tmax eta (o, d) in
         let o' := fst (fst r) in
         match pure_run F G (solver pr x) with
         | Err e => o' = o /\ snd r = Err e
         | Ok ARuntime => o' = o
         | Ok (AReturn x_opt loss evals result) => In result (map fst nlopt_codes) ->
             match G x_opt with
             | Ok g => reports o o' x_opt loss evals result g
             | Err e => snd r = Err e
             end
         | Ok (ARoundoff loss evals result) => In result (map fst nlopt_codes) ->
             forall x_opt, optimization_parameters o (snd (fst r)) = Ok x_opt ->
             match G x_opt with
             | Ok g => reports o o' x_opt loss evals result g
             | Err e => snd r = Err e
             end
         end.
  Proof. exact c69_results. Qed.
  (** With automatic differentiation, likewise: if it computes the gradient [G] of the objective, wherever the objective was
      evaluated before, then the solver is given [G] and the optimizer reports [G]. *)
  Theorem C69_autodiff : forall ad G solver algorithm h iters eps kappa tmax eta o d,
    obtained o -> keys_in_range o -> (forall s, In s (addressed o) -> present d s) ->
    0 < number_of_parameters o -> 0 < number_of_constraints o ->
    In algorithm ["SLSQP"; "LBFGS"; "MMA"; "TNEWTON"; "AUGLAG"; "VAR"]%string ->
    (forall pr x, as_requested o d algorithm iters eps kappa pr x -> well_sized (List.length x) (solver pr x)) ->
    differentiates ad o tmax eta d G ->
    exists pr x, as_requested o d algorithm iters eps kappa pr x
      /\ let F := objective o tmax eta d in
         let r := solve ad solver algorithm "AD" h iters eps kappa tmax eta (o, d) in
         let o' := fst (fst r) in
         match pure_run F G (solver pr x) with
         | Err e => o' = o /\ snd r = Err e
         | Ok ARuntime => o' = o
         | Ok (AReturn x_opt loss evals result) => In result (map fst nlopt_codes) ->
             match G x_opt with
             | Ok g => reports o o' x_opt loss evals result g
             | Err e => snd r = Err e
             end
         | Ok (ARoundoff loss evals result) => In result (map fst nlopt_codes) ->
             forall x_opt, optimization_parameters o (snd (fst r)) = Ok x_opt ->
             match G x_opt with
             | Ok g => reports o o' x_opt loss evals result g
             | Err e => snd r = Err e
             end
         end.
  Proof. exact c69_autodiff. Qed.
  (** Solving through the proxy is solving with an optimizer to which the constraints and the parameters were added in order,
      with automatic differentiation and the settings given. *)
  Theorem C69_proxy : forall ad solver d cs ps algorithm iters h eps kappa tmax eta,
    solve_proxy ad solver d cs ps algorithm iters h eps kappa tmax eta
    = solve ad solver algorithm "AD" h iters eps kappa tmax eta (after_calls (map AddConstraint cs ++ map AddParameter ps), d).
  Proof. exact c69_proxy. Qed.

  (** ** Bookkeeping *)

  (** The optimizer holds exactly the parameters and the constraints that were added and not removed since, under their
      number in the order of addition, and in this order, however often it solved. *)
  Theorem C68_held : forall (cs : list (@call T)),
    (forall k p, In (k, p) (o_params (after_calls cs)) <-> kept_parameter cs k p)
    /\ (forall k c, In (k, c) (o_cons (after_calls cs)) <-> kept_constraint cs k c)
    /\ StronglySorted Z.lt (dkeys (o_params (after_calls cs))) /\ StronglySorted Z.lt (dkeys (o_cons (after_calls cs))).
  Proof. exact c68_held. Qed.
  (** Adding never raises, removing raises only if nothing is there, and then it changes nothing. *)
  Theorem C68_raises : forall (cs : list (@call T)) c, ~ solves c ->
    (snd (perform c (after_calls cs)) = Ok tt
     \/ snd (perform c (after_calls cs)) = Err KeyError /\ fst (perform c (after_calls cs)) = after_calls cs)
    /\ (snd (perform c (after_calls cs)) = Err KeyError <->
        match c with
        | RemoveParameter k => forall p, ~ kept_parameter cs k p
        | RemoveConstraint k => forall c, ~ kept_constraint cs k c
        | _ => False
        end).
  Proof. exact c68_raises. Qed.
  (** These are all the optimizers a user can make. *)
  Theorem C68_obtained : forall o, obtained o <-> exists cs, o = after_calls cs.
  Proof. exact c68_obtained. Qed.
End Generic.
Print Assumptions C45_frame.
Print Assumptions C45_objective_frame.
Print Assumptions C45_round_trip.
Print Assumptions C45_idle.
Print Assumptions C46_objective.
Print Assumptions C46_solver.
Print Assumptions C47_forward_differences.
Print Assumptions C47_component.
Print Assumptions C47_objective_gradient.
Print Assumptions C52_variables_partial.
Print Assumptions C52_added_partial.
Print Assumptions C53_empty_problem.
Print Assumptions C53_unknown_gradient.
Print Assumptions C53_unknown_algorithm.
Print Assumptions C54_last_point_partial.
Print Assumptions C54_roundoff.
Print Assumptions C69_problem.
Print Assumptions C69_unique.
Print Assumptions C69_accepted.
Print Assumptions C69_results.
Print Assumptions C69_autodiff.
Print Assumptions C69_proxy.
Print Assumptions C68_held.
Print Assumptions C68_raises.
Print Assumptions C68_obtained.

(** ** Over the real numbers *)

Open Scope R_scope.
(** The bounds of a parameter enclose its value, at the distances given; no bound
  given means no bound. *)
Theorem C44_bounds : forall (d : diagram R) p x, quantity d (p_slot p) = Ok x ->
  (match p_low p with
   | Some b => exists l, bound_low d p = Ok (Some l) /\ l <= x /\ x - l = Rabs b
   | None => bound_low d p = Ok None
   end) /\
  (match p_up p with
   | Some b => exists u, bound_up d p = Ok (Some u) /\ x <= u /\ u - x = Rabs b
   | None => bound_up d p = Ok None
   end).
Proof. exact c44_bounds. Qed.
(** The external solver only ever sees a start vector within its bounds: what it
  would do otherwise makes no difference. *)
Theorem C44_solver : forall ad solver solver' algorithm grad h iters eps kappa tmax eta (o : optimizer R) d,
  (forall pr x, in_bounds Rle pr x -> solver pr x = solver' pr x) ->
  solve ad solver algorithm grad h iters eps kappa tmax eta (o, d) = solve ad solver' algorithm grad h iters eps kappa tmax eta (o, d).
Proof. exact c44_solver. Qed.
(** The objective at [x] is the sum of the weighted squared deviations of the equilibrium found with the variables [x], over
  all constraints. *)
Theorem C46_value : forall (o : optimizer R) tmax eta d x d' st v,
  update_parameters o x d = (d', Ok tt) -> equilibrium_state_numpy d' tmax eta false = Ok st ->
  (forall k c, In (k, c) (o_cons o) -> has_direction st (c_goal c)) ->
  objective o tmax eta d x = Ok v <->
  exists ys, Forall2 (fun kc y => deviates st (c_goal (snd kc)) y) (o_cons o) ys
    /\ v = rsum (map (fun cy => c_weight (snd (fst cy)) * (snd cy * snd cy)) (combine (o_cons o) ys)).
Proof. exact c46_value. Qed.
(** The gradient is exact for an affine function. *)
Theorem C47_affine : forall (g : list R -> res R) c a h x, h <> 0 -> List.length a = List.length x ->
  (forall y, List.length y = List.length x -> g y = Ok (c + rsum (map (fun ax => fst ax * snd ax) (combine a y)))) ->
  forward_differences g h x = Ok a.
Proof. exact c47_affine. Qed.
Print Assumptions C44_bounds.
Print Assumptions C44_solver.
Print Assumptions C46_value.
Print Assumptions C47_affine.
Close Scope R_scope.

(** ** Counterexamples *)

Open Scope Z_scope.
(** Removing a parameter other than the last makes the optimizer unusable. *)
Theorem C52_refuted : exists o (d : diagram float), reachable d /\ obtained o /\ number_of_parameters o = 1
  /\ (forall s, In s (addressed o) -> present d s)
  /\ optimization_parameters o d = Err IndexError.
Proof. exact c52_refuted. Qed.
(** Even if a parameter is added again *)
Theorem C52_replaced_refuted : exists o (d : diagram float), reachable d /\ obtained o
  /\ o = fst (add_parameter (mkParam (EdgeSlot (1, 4) AForce) None None) (fst (remove_parameter 0
           (fst (add_parameter (mkParam (EdgeSlot (1, 5) AForce) None None) new_optimizer)))))
  /\ number_of_parameters o = 1
  /\ (forall s, In s (addressed o) -> present d s)
  /\ optimization_parameters o d = Err IndexError.
Proof. exact c52_replaced_refuted. Qed.
(** The form returned by solve need not be the form of x_opt: a solver may return a
  point other than the last one it evaluated. *)
Theorem C54_refuted : exists solver o (d : diagram float) o' d' form x,
  reachable d /\ obtained o
  /\ solve no_ad solver "SLSQP" "FD" 0x1p-20%float 100 None None 100 neps6 (o, d) = ((o', d'), Ok form)
  /\ o_x o' = Some x
  /\ exists dx form_x, update_parameters o x d = (dx, Ok tt)
     /\ static_equilibrium dx None 100 neps6 false = Ok form_x /\ form_x <> form.
Proof. exact c54_refuted. Qed.
(** Even if the solver returns the last point it evaluated, the form is not the one
  found with the tmax and eta given to solve. *)
Theorem C54_settings_refuted : exists solver o (d : diagram float) o' d' form x tmax eta,
  reachable d /\ obtained o
  /\ solve no_ad solver "SLSQP" "AD" 0x1p-20%float 100 None None tmax eta (o, d) = ((o', d'), Ok form)
  /\ o_x o' = Some x
  /\ exists form_x, update_parameters o x d = (d', Ok tt)
     /\ static_equilibrium d' None tmax eta false = Ok form_x /\ form_x <> form.
Proof. exact c54_settings_refuted. Qed.
Print Assumptions C52_refuted.
Print Assumptions C52_replaced_refuted.
Print Assumptions C54_refuted.
Print Assumptions C54_settings_refuted.

(** ** The hypotheses can be met *)

(** Two bounds around the force of the deviation edge of the funicular *)
Example C44_nonvacuous : exists x, quantity funicular (p_slot (mkParam (EdgeSlot (1, 2) AForce) (Some 2%R) (Some (-3)%R))) = Ok x.
Proof. eexists. lazy. reflexivity. Qed.

(** The braced tower with four variables of different kinds *)
Example C45_nonvacuous : obtained tower_optimizer /\ keys_in_range tower_optimizer /\ NoDup (addressed tower_optimizer)
  /\ (forall s, In s (addressed tower_optimizer) -> present float_tower s)
  /\ Z.of_nat (List.length [1; 2; 3; 4]%float) = number_of_parameters tower_optimizer.
Proof.
  split; [apply tower_obtained|]. split; [apply tower_keys|]. split; [apply tower_distinct|]. split; [apply tower_present|].
  vm_compute. reflexivity.
Qed.

(** The objective is defined at two points and differs. *)
Example C46_nonvacuous : exists y z, objective tower_optimizer 100 neps6 float_tower [1; -1; 0; 2]%float = Ok y
  /\ objective tower_optimizer 100 neps6 float_tower [0x1.8p0; -1; 0x1p-2; 2]%float = Ok z /\ PrimFloat.eqb y z = false.
Proof. eexists. eexists. split; [vm_compute; reflexivity|]. split; vm_compute; reflexivity. Qed.

(** The solver that goes back passes arrays of the right size. *)
Example C46_solver_nonvacuous : forall pr, well_sized (Z.to_nat (number_of_parameters tower_optimizer)) (goes_back pr [1; -1; 0; 2]%float).
Proof. intros pr. apply ws_eval; [reflexivity|now left|]. intros y g. apply ws_eval; [reflexivity|now left|]. intros y' g'. now apply ws_return. Qed.

(** The gradient of the objective exists. *)
Example C47_nonvacuous : exists ds, forward_differences (objective tower_optimizer 100 neps6 float_tower) 0x1p-20%float [1; -1; 0; 2]%float = Ok ds.
Proof. eexists. vm_compute. reflexivity. Qed.

(** An affine function of two variables *)
Example C47_affine_nonvacuous : exists g : list R -> res R, forall y, List.length y = List.length [5; 6]%R ->
  g y = Ok (1 + rsum (map (fun ax => fst ax * snd ax) (combine [2; 3] y)))%R.
Proof. exists (fun y => Ok (1 + rsum (map (fun ax => fst ax * snd ax) (combine [2; 3] y)))%R). reflexivity. Qed.

(** A well-posed problem with an unknown algorithm *)
Example C53_nonvacuous : 0 < number_of_parameters tower_optimizer /\ 0 < number_of_constraints tower_optimizer
  /\ ~ In "COBYLA"%string ["SLSQP"; "LBFGS"; "MMA"; "TNEWTON"; "AUGLAG"; "VAR"]%string.
Proof. split; [vm_compute; reflexivity|]. split; [vm_compute; reflexivity|]. cbn. intuition discriminate. Qed.

(** Solving succeeds when the solver stops on roundoff errors. *)
Example C54_nonvacuous : exists o' d' form ys loss,
  solver_run no_ad rounds tower_optimizer float_tower "LBFGS" "FD" 0x1p-20%float 100 None None 100 neps6
    = Ok (ys ++ [elsewhere [1; -1; 0; 2]%float], Ok (ARoundoff loss 2 (-4)))
  /\ solve no_ad rounds "LBFGS" "FD" 0x1p-20%float 100 None None 100 neps6 (tower_optimizer, float_tower) = ((o', d'), Ok form).
Proof.
  eexists. eexists. eexists. exists [[1; -1; 0; 2]%float]. eexists. split; vm_compute; reflexivity.
Qed.

(** The funicular with the force of its deviation edge as variable and a length as goal *)
Example C46_value_nonvacuous : exists (o : optimizer R) x d' st, obtained o
  /\ update_parameters o x funicular = (d', Ok tt) /\ equilibrium_state_numpy d' 1 (/ 1000000)%R false = Ok st
  /\ (forall k c, In (k, c) (o_cons o) -> has_direction st (c_goal c)) /\ number_of_constraints o = 1.
Proof.
  set (o := after_calls [AddParameter (mkParam (EdgeSlot (1, 2) AForce) None None); AddConstraint (mkConstraint (LengthGoal (0, 1) 2%R) 3%R)]).
  assert (F : exists f, edge_force funicular (1, 2) = Ok f) by (eexists; lazy; reflexivity). destruct F as [f F].
  destruct funicular_sound as (form&E&S).
  assert (N := c41_direct funicular _ _ funicular_reachable funicular_ready (proj1 funicular_direct) E S 1 (/ 1000000)%R false).
  rewrite E in N. apply numpy_state in N as [st N].
  exists o, [f], funicular, st. split; [apply c68_obtained; eexists; reflexivity|].
  split; [|split; [exact N|split; [|reflexivity]]].
  - apply c45_idle; [apply c68_obtained; eexists; reflexivity|]. unfold optimization_parameters. change (o_params o) with [(0, @mkParam R (EdgeSlot (1, 2) AForce) None None)].
    cbn [fold_res fst snd List.length repeat]. rewrite start_quantity. cbn [p_slot quantity]. rewrite F. reflexivity.
  - intros k c [I|[]]. injection I as <- <-. exact I.
Qed.

(** Two parameters and a constraint, one parameter removed *)
Example C68_nonvacuous : let cs := [AddParameter (mkParam (T := float) (EdgeSlot (1, 4) AForce) None None);
    AddConstraint (mkConstraint (LengthGoal (0, 1) 2%float) 3%float); AddParameter (mkParam (NodeSlot 5 AY) None None); RemoveParameter 0] in
  kept_parameter cs 1 (mkParam (NodeSlot 5 AY) None None) /\ o_params (after_calls cs) = [(1, mkParam (NodeSlot 5 AY) None None)]
  /\ snd (perform (RemoveParameter 0) (after_calls cs)) = Err KeyError.
Proof.
  cbn zeta. split; [|split; reflexivity]. eexists [_; _], [_]. split; [reflexivity|]. split; [reflexivity|].
  intros [E|[]]. discriminate E.
Qed.

(** The solver that goes back is called with arrays of the right size, and its result is reported. *)
Example C69_nonvacuous : forall pr x, as_requested tower_optimizer float_tower "MMA" 100 None (Some neps6) pr x ->
  well_sized (List.length x) (goes_back pr x).
Proof.
  intros pr x A. assert (L := ar_x _ _ _ _ _ _ _ _ A). change (number_of_parameters tower_optimizer) with 4 in L.
  assert (L' : List.length x = 4%nat) by lia. rewrite L'.
  apply ws_eval; [exact L'|now left|]. intros y g. apply ws_eval; [unfold elsewhere; now rewrite map_length|now left|]. intros y' g'. now apply ws_return.
Qed.
Example C69_autodiff_nonvacuous :
  differentiates (fun f x => grad_finite_differences f 0x1p-20%float x (repeat n0 (List.length x))) tower_optimizer 100 neps6 float_tower
    (forward_differences (objective tower_optimizer 100 neps6 float_tower) 0x1p-20%float)
  /\ exists g, forward_differences (objective tower_optimizer 100 neps6 float_tower) 0x1p-20%float [1; -1; 0; 2]%float = Ok g
     /\ List.length g = 4%nat.
Proof. split; [apply differences_differentiate|]. eexists. split; vm_compute; reflexivity. Qed.
Example C69_goes_back : exists o' d' form,
  solve no_ad goes_back "MMA" "FD" 0x1p-20%float 100 None (Some neps6) 100 neps6 (tower_optimizer, float_tower) = ((o', d'), Ok form)
  /\ o_x o' = Some [1; -1; 0; 2]%float /\ o_status o' = Some "NLOPT_SUCCESS"%string /\ o_evals o' = Some 2.
Proof. do 3 eexists. split; [vm_compute; reflexivity|]. split; [|split]; vm_compute; reflexivity. Qed.
