(** * Solving in another process

    Model of a call of solve_proxy through compas.rpc (optimization/proxy.py:8-95,
    ghpython/components/CompasCem_ConstrainedFormFinding/code.py:36-52).  The topology
    diagram, the constraints and the parameters are written as JSON, read by the server,
    solved there, and the results are written as JSON and read by the caller.

    compas.rpc is external to /repo.  It is modelled as: every object is written as its
    [data] and read by [from_data] of its class; numbers and texts arrive as they are.  The
    proxy reports an exception of the server with its text; here it is the exception.  The
    duration is not modelled.  The server is a new process with the same library. *)

From Coq Require Import String List ZArith Bool.
From Verif Require Import Py Num Diagram Topology Equilibrium EquilibriumNp Constraints Optimizer Serialize Files.
Import ListNotations.
Open Scope Z_scope.

Section Remote.
  Context {T : Type} `{NumOps T}.

  (** ** What travels *)

  (** A constraint that was written and read (constraint.py:58-102, 167-203) *)
  Definition carry_constraint (c : cobj T) : res (cobj T) :=
    let* d := constraint_data c in constraint_from_data (co_class c) (json_dict d).

  (** A parameter that was written and read (parameters/edge.py:31-80, node.py:29-76) *)
  Definition carry_parameter (p : pobj T) : res (pobj T) :=
    let* d := parameter_data p in parameter_from_data (po_class p) (json_dict d).

  (** What the methods of a constraint read of its key, target and weight (constraint.py:26-56,
      point.py, line.py, plane.py, polyline.py, force.py, length.py, direction.py): a
      compas object or the coordinates alone.  Other combinations are not modelled and raise
      here. *)
  Definition goal_of (c : cobj T) : res (constraint T) :=
    let ok g := Ok (mkConstraint g (co_weight c)) in
    match co_class c, co_key c, co_target c with
    | CPoint, VInt n, (GPoint p | Plain [p]) => ok (PointGoal n p)
    | CLine, VInt n, (GLine a b | Plain [a; b]) => ok (LineGoal n a b)
    | CPlane, VInt n, (GPlane a b | Plain [a; b]) => ok (PlaneGoal n a b)
    | CPolyline, VInt n, (GPolyline l | Plain l) => ok (PolylineGoal n l)
    | CTrailForce, VTuple [u; v], Number x => ok (TrailForceGoal (u, v) x)
    | CReaction, VInt n, (GVector p | Plain [p]) => ok (ReactionGoal n p)
    | CLength, VTuple [u; v], Number x => ok (LengthGoal (u, v) x)
    | CDirection, VTuple [u; v], (GVector p | Plain [p]) => ok (DirectionGoal (u, v) p)
    | _, _, _ => Err TypeError
    end.

  (** What is read of a bound: a number or None (parameter.py:36-62) *)
  Definition bound_of (v : pyval T) : res (option T) :=
    match v with VNone => Ok None | VFloat x => Ok (Some x) | _ => Err TypeError end.

  (** What is read of the name of the attribute (parameter.py:64-68) *)
  Definition name_is (v : pyval T) (s : string) : bool :=
    match v with VStr t => String.eqb t s | _ => false end.

  (** What the optimizer reads of a parameter (parameter.py:24-68): the key, the attribute
      and the bounds *)
  Definition parameter_of (p : pobj T) : res (parameter T) :=
    let* low := bound_of (po_low p) in
    let* up := bound_of (po_up p) in
    if name_is (po_attr p) (class_attr (po_class p)) then
      match po_class p, po_key p with
      | NodeClass a, VInt n => Ok (mkParam (NodeSlot n a) low up)
      | EdgeClass a, VTuple [u; v] => Ok (mkParam (EdgeSlot (u, v) a) low up)
      | _, _ => Err TypeError
      end
    else Err TypeError.

  (** ** The solver on an object that was read

      Every definition of this part is that of EquilibriumNp.v or Optimizer.v with the trails
      of an object in place of those of a diagram. *)

  (** One visit (force_numpy.py:94-182) *)
  Definition o_visit_numpy (d : diagram T) (env : np_env T) (ts : dict pkey (dict Z Z)) (indirect : bool)
      (k : Z) (st : eqstate T) (key : pkey) : res (eqstate T) :=
    let* m := dgetr ts key in visit_numpy d env [(0, m)] indirect k st 0.

  (** One iteration (force_numpy.py:92-182) *)
  Definition o_sweep_numpy (o : object T) (env : np_env T) (ts : dict pkey (dict Z Z)) (indirect : bool)
      (st : eqstate T) : res (eqstate T) :=
    let* n := number_of_sequences (o_base o) in
    fold_res (fun st k => fold_res (o_visit_numpy (o_base o) env ts indirect k) (dkeys (o_trails o)) st) (zrange n) st.

  (** The loop over iterations (force_numpy.py:87-196) *)
  Fixpoint o_iterate_numpy (o : object T) (env : np_env T) (ts : dict pkey (dict Z Z)) (eta : T)
      (n t : nat) (distance : option T) (st : eqstate T) : res (eqstate T * option nat * option T) :=
    match n with
    | O => Ok (st, match t with O => None | S t => Some t end, distance)
    | S n =>
        let* st' := o_sweep_numpy o env ts (negb (Nat.eqb t 0)) st in
        if Nat.eqb t 0 then o_iterate_numpy o env ts eta n (S t) distance st'
        else
          let* dist := residual_numpy (s_xyz st) (s_xyz st') in
          if nltb dist eta then Ok (st', Some t, Some dist)
          else o_iterate_numpy o env ts eta n (S t) (Some dist) st'
    end.

  (** equilibrium_state_numpy (force_numpy.py:45-215) *)
  Definition o_equilibrium_state_numpy (o : object T) (tmax : Z) (eta : T) (verbose : bool) : res (eqstate T) :=
    if negb (Z.ltb 0 (Z.of_nat (List.length (o_trails o)))) then Err (AssertionError "No trails in the diagram!")
    else
      let* ts := o_trails_sequences o in
      let* env := np_containers (o_base o) in
      let* r := o_iterate_numpy o env ts eta (Z.to_nat tmax) 0 None (init_state (o_base o)) in
      let '(st, t, distance) := r in
      match t with
      | None => Err UnboundLocalError
      | Some t =>
          if negb (Nat.eqb t 0) then
            match distance with
            | None => Err UnboundLocalError
            | Some dist => if nltb eta dist then Err (ValueError "Over iters") else Ok st
            end
          else if verbose && match distance with None => true | Some _ => false end
               then Err UnboundLocalError
               else Ok st
      end.

  (** _optimize_form (optimizer.py:352-359) *)
  Definition o_optimize_form (opt : optimizer T) (tmax : Z) (eta : T) (x : list T) : eff (object T) T :=
    do* _ := on_base (update_parameters opt x) in
    eget (fun o => let* st := o_equilibrium_state_numpy o tmax eta false in
                   calculate_penalty (dvalues (o_cons opt)) st).

  (** Automatic differentiation, of functions that work on an object of any kind *)
  Definition differentiation : Type := forall S : Type, (list T -> eff S T) -> list T -> eff S (list T).

  (** The gradient function (optimizer.py:202-213) *)
  Definition o_gradient_function (ad : differentiation) (opt : optimizer T) (grad : string) (h : T) (tmax : Z) (eta : T)
      : res (list T -> list T -> eff (object T) (list T)) :=
    if String.eqb grad "AD" then Ok (grad_autograd (ad (object T) (o_optimize_form opt tmax eta)))
    else if String.eqb grad "FD" then Ok (grad_finite_differences (o_optimize_form opt tmax eta) h)
    else Err (ValueError "Gradient method").

  (** static_equilibrium(topology) with the default tmax and eta (equilibrium/force.py:18) *)
  Definition o_default_form (o : object T) : res (diagram T) := o_static_equilibrium o None 100 neps6 false.

  (** Everything up to the solver object (optimizer.py:198-235) *)
  Definition o_prepare (ad : differentiation) (opt : optimizer T) (o : object T) (algorithm grad : string) (h : T) (iters : Z)
      (eps kappa : option T) (tmax : Z) (eta : T)
      : res ((list T -> list T -> eff (object T) (list T)) * list T * problem T) :=
    let* _ := check_optimization_sanity opt in
    let* gf := o_gradient_function ad opt grad h tmax eta in
    let* x := optimization_parameters opt (o_base o) in
    let* lu := optimization_bounds opt (o_base o) in
    let* pr := nlopt_solver algorithm (number_of_parameters opt) (snd lu) (fst lu) iters eps kappa in
    Ok (gf, x, pr).

  (** Optimizer.solve (optimizer.py:198-280) *)
  Definition o_solve (ad : differentiation) (solver : problem T -> list T -> strategy T)
      (algorithm grad : string) (h : T) (iters : Z) (eps kappa : option T) (tmax : Z) (eta : T)
      : eff (optimizer T * object T) (diagram T) :=
    fun oo =>
      let '(opt, o) := oo in
      match o_prepare ad opt o algorithm grad h iters eps kappa tmax eta with
      | Err e => (oo, Err e)
      | Ok (gf, x, pr) =>
          let f := objective_function_numpy (o_optimize_form opt tmax eta) gf in
          let '((o', c'), a) := run_strategy f (solver pr x) (o, o) in
          let finish x_opt loss evals result :=
            match nlopt_status result with
            | Err e => ((opt, o'), Err e)
            | Ok status =>
                let opt' := with_result opt x_opt loss evals status in
                match gf x_opt (repeat n0 (List.length x_opt)) c' with
                | (_, Err e) => ((opt', o'), Err e)
                | (_, Ok g) => ((with_gradient opt' g (array_norm g), o'), o_default_form o')
                end
            end in
          match a with
          | Err e => ((opt, o'), Err e)
          | Ok (AReturn x_opt loss evals result) => finish x_opt loss evals result
          | Ok (ARoundoff loss evals result) =>
              match optimization_parameters opt (o_base o') with
              | Err e => ((opt, o'), Err e)
              | Ok x_opt => finish x_opt loss evals result
              end
          | Ok ARuntime => ((opt, o'), o_default_form o')
          end
      end.

  (** ** The call *)

  (** What solve_proxy returns besides the diagrams (proxy.py:83-89), without the duration:
      the objective, the norm of the gradient, the number of evaluations and the status *)
  Definition results (opt : optimizer T) : option T * option T * option Z * option string :=
    (o_penalty opt, o_norm opt, o_evals opt, o_status opt).

  (** solve_proxy through the proxy (proxy.py:8-95) *)
  Definition remote_solve (ad : differentiation) solver (d : diagram T) (constraints : list (cobj T)) (parameters : list (pobj T))
      (algorithm : string) (iters : Z) (h : T) (eps kappa : option T) (tmax : Z) (eta : T)
      : res (object T * object T * (option T * option T * option Z * option string)) :=
    let* o := from_json (topology_file d) in
    let* cs := map_res carry_constraint constraints in
    let* ps := map_res carry_parameter parameters in
    let* goals := map_res goal_of cs in
    let* slots := map_res parameter_of ps in
    match o_solve ad solver algorithm "AD" h iters eps kappa tmax eta (proxy_optimizer goals slots, o) with
    | (_, Err e) => Err e
    | ((opt, o'), Ok form) =>
        let* topology := from_json (json (object_data true o')) in
        let* form := from_json (form_file form) in
        Ok (topology, form, results opt)
    end.

  (** solve_proxy in the process of the caller (proxy.py:8-95) *)
  Definition local_solve (ad : differentiation) solver (d : diagram T) (constraints : list (cobj T)) (parameters : list (pobj T))
      (algorithm : string) (iters : Z) (h : T) (eps kappa : option T) (tmax : Z) (eta : T)
      : res (diagram T * diagram T * (option T * option T * option Z * option string)) :=
    let* goals := map_res goal_of constraints in
    let* slots := map_res parameter_of parameters in
    match solve_proxy (ad (diagram T)) solver d goals slots algorithm iters h eps kappa tmax eta with
    | (_, Err e) => Err e
    | ((opt, d'), Ok form) => Ok (d', form, results opt)
    end.
End Remote.

Arguments differentiation : clear implicits.
