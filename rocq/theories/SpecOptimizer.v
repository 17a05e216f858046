(** * Vocabulary of optimization *)

From Coq Require Import String List ZArith Bool.
From Verif Require Import Py Num Diagram Topology Equilibrium EquilibriumNp Constraints Optimizer.
Import ListNotations.
Open Scope Z_scope.

Section Spec.
  Context {T : Type} `{NumOps T}.
  Implicit Types (d : diagram T) (o : optimizer T).

  (** [Optimizer.solve] as a method of the optimizer: the diagram is thrown away *)
  Definition solve_again ad solver algorithm grad h iters eps kappa tmax eta d : eff (optimizer T) unit :=
    fun o => let '((o', _), r) := solve ad solver algorithm grad h iters eps kappa tmax eta (o, d) in
             (o', match r with Ok _ => Ok tt | Err e => Err e end).

  (** Optimizers a user can make: any history of the five public methods *)
  Inductive obtained : optimizer T -> Prop :=
  | obtained_new : obtained new_optimizer
  | obtained_add_parameter o p : obtained o -> obtained (fst (add_parameter p o))
  | obtained_remove_parameter o k : obtained o -> obtained (fst (remove_parameter k o))
  | obtained_add_constraint o c : obtained o -> obtained (fst (add_constraint c o))
  | obtained_remove_constraint o k : obtained o -> obtained (fst (remove_constraint k o))
  | obtained_solve o ad solver algorithm grad h iters eps kappa tmax eta d : obtained o ->
      obtained (fst (solve_again ad solver algorithm grad h iters eps kappa tmax eta d o)).

  (** Calls of these methods, one after the other; exceptions are caught. *)
  Inductive call : Type :=
  | AddParameter (p : parameter T)
  | RemoveParameter (k : Z)
  | AddConstraint (c : constraint T)
  | RemoveConstraint (k : Z)
  | Solve (ad : (list T -> eff (diagram T) T) -> list T -> eff (diagram T) (list T)) (solver : problem T -> list T -> strategy T)
      (algorithm grad : string) (h : T) (iters : Z) (eps kappa : option T) (tmax : Z) (eta : T) (d : diagram T).
  Definition perform (c : call) : eff (optimizer T) unit :=
    match c with
    | AddParameter p => add_parameter p
    | RemoveParameter k => remove_parameter k
    | AddConstraint c => add_constraint c
    | RemoveConstraint k => remove_constraint k
    | Solve ad solver algorithm grad h iters eps kappa tmax eta d =>
        solve_again ad solver algorithm grad h iters eps kappa tmax eta d
    end.
  Definition solves (c : call) : Prop :=
    match c with Solve _ _ _ _ _ _ _ _ _ _ _ => True | _ => False end.
  Definition after_calls (cs : list call) : optimizer T := fold_left (fun o c => fst (perform c o)) cs new_optimizer.

  (** How often a parameter or a constraint was added *)
  Definition parameters_added (cs : list call) : Z :=
    Z.of_nat (List.length (filter (fun c => match c with AddParameter _ => true | _ => false end) cs)).
  Definition constraints_added (cs : list call) : Z :=
    Z.of_nat (List.length (filter (fun c => match c with AddConstraint _ => true | _ => false end) cs)).

  (** [p] was the parameter number [k] to be added, and was not removed since;
      likewise for constraints. *)
  Definition kept_parameter (cs : list call) (k : Z) (p : parameter T) : Prop :=
    exists pre post, cs = pre ++ AddParameter p :: post /\ parameters_added pre = k /\ ~ In (RemoveParameter k) post.
  Definition kept_constraint (cs : list call) (k : Z) (c : constraint T) : Prop :=
    exists pre post, cs = pre ++ AddConstraint c :: post /\ constraints_added pre = k /\ ~ In (RemoveConstraint k) post.

  (** The quantities the parameters of the optimizer address *)
  Definition addressed o : list slot := map (fun kp => p_slot (snd kp)) (o_params o).

  (** The value of a quantity: a coordinate, a component of a load, the force of a
      deviation edge or the length of a trail edge *)
  Definition quantity d (s : slot) : res T :=
    match s with
    | NodeSlot n AX => let* p := node_coordinates d n in Ok (vx p)
    | NodeSlot n AY => let* p := node_coordinates d n in Ok (vy p)
    | NodeSlot n AZ => let* p := node_coordinates d n in Ok (vz p)
    | NodeSlot n AQX => let* q := node_load d n in Ok (vx q)
    | NodeSlot n AQY => let* q := node_load d n in Ok (vy q)
    | NodeSlot n AQZ => let* q := node_load d n in Ok (vz q)
    | EdgeSlot e AForce => edge_force d e
    | EdgeSlot e ALength => edge_length_2 d e
    end.

  (** The quantity exists in the diagram. *)
  Definition present d (s : slot) : Prop := exists y, quantity d s = Ok y.

  (** The keys of the parameters are 0, ..., n - 1 in some order. *)
  Definition keys_in_range o : Prop := forall k, In k (dkeys (o_params o)) -> 0 <= k < number_of_parameters o.

  (** No public query tells the two diagrams apart, except for the values of the
      quantities [S]. *)
  Definition same_except (S : list slot) d d' : Prop :=
    nodes d' = nodes d /\ edges d' = edges d
    /\ (forall n, neighbors d' n = neighbors d n)
    /\ (forall r, node_key d' r = node_key d r)
    /\ trails d' = trails d /\ auxiliary_trails d' = auxiliary_trails d
    /\ (forall n, is_node_support d' n = is_node_support d n)
    /\ (forall n, is_node_origin d' n = is_node_origin d n)
    /\ (forall n, node_sequence d' n = node_sequence d n)
    /\ (forall n, reaction_force d' n = reaction_force d n)
    /\ (forall e, is_trail_edge d' e = is_trail_edge d e)
    /\ (forall e, is_deviation_edge d' e = is_deviation_edge d e)
    /\ (forall e, edge_plane d' e = edge_plane d e)
    /\ (forall s, ~ In s S -> quantity d' s = quantity d s).

  (** The diagram after evaluating the objective at some points, one after the other *)
  Definition after_evaluations o tmax eta (ys : list (list T)) d : diagram T :=
    fold_left (fun d y => fst (optimize_form o tmax eta y d)) ys d.

  (** The objective as a function of the variables alone, on the diagram [d] *)
  Definition objective o tmax eta d (x : list T) : res T := snd (optimize_form o tmax eta x d).

  (** [x] with [h] added to its component [i] *)
  Definition bump (x : list T) (i : nat) (h : T) : list T := set_nth x i (nadd (nth i x n0) h).

  (** (g (x + h e_i) - g x) / h for every component [i] *)
  Definition forward_differences (g : list T -> res T) (h : T) (x : list T) : res (list T) :=
    let* y0 := g x in
    map_res (fun i => let* y := g (bump x i h) in Ok (ndiv (nsub y y0) h)) (seq 0 (List.length x)).

  (** What the external solver would do with a pure objective [F] and gradient [G] *)
  Fixpoint pure_run (F : list T -> res T) (G : list T -> res (list T)) (s : strategy T) : res (answer T) :=
    match s with
    | SEval x grad k =>
        let* y := F x in
        if Nat.ltb 0 (List.length grad) then let* g := G x in pure_run F G (k y g) else pure_run F G (k y grad)
    | SReturn x l n r => Ok (AReturn x l n r)
    | SRoundoff l n r => Ok (ARoundoff l n r)
    | SRuntime => Ok ARuntime
    end.

  (** The gradient arrays the solver passes have one entry per variable, or none. *)
  Inductive well_sized (n : nat) : strategy T -> Prop :=
  | ws_eval x grad k : List.length x = n -> List.length grad = n \/ List.length grad = 0%nat ->
      (forall y g, well_sized n (k y g)) -> well_sized n (SEval x grad k)
  | ws_return x l e r : List.length x = n -> well_sized n (SReturn x l e r)
  | ws_roundoff l e r : well_sized n (SRoundoff l e r)
  | ws_runtime : well_sized n SRuntime.

  (** The points at which the solver evaluates an objective, in order *)
  Fixpoint visited {S} (f : list T -> list T -> eff S (T * list T)) (s : strategy T) (st : S) : list (list T) :=
    match s with
    | SEval x grad k =>
        x :: match f x grad st with
             | (st', Ok fg) => visited f (k (fst fg) (snd fg)) st'
             | (_, Err _) => []
             end
    | _ => []
    end.

  (** A run of the solver in [solve]: the points it evaluates, and how it ends *)
  Definition solver_run ad solver o d algorithm grad h iters eps kappa tmax eta : res (list (list T) * res (answer T)) :=
    let* p := prepare ad o d algorithm grad h iters eps kappa tmax eta in
    let '(gf, x, pr) := p in
    let f := objective_function_numpy (optimize_form o tmax eta) gf in
    Ok (visited f (solver pr x) (d, d), snd (run_strategy f (solver pr x) (d, d))).

  (** The start values lie within the bounds, and there is one of each per variable. *)
  Definition in_bounds (le : T -> T -> Prop) (pr : problem T) (x : list T) : Prop :=
    Z.of_nat (List.length x) = pr_dims pr
    /\ Forall2 (fun l v => match l with Some l => le l v | None => True end) (pr_low pr) x
    /\ Forall2 (fun u v => match u with Some u => le v u | None => True end) (pr_up pr) x.

  (** The algorithms of NLopt *)
  Definition nlopt_names : list (string * string) :=
    [("SLSQP", "LD_SLSQP"); ("LBFGS", "LD_LBFGS"); ("MMA", "LD_MMA"); ("TNEWTON", "LD_TNEWTON"); ("AUGLAG", "LD_AUGLAG");
     ("VAR", "LD_VAR2")]%string.

  (** The result codes of NLopt *)
  Definition nlopt_codes : list (Z * string) :=
    [(1, "NLOPT_SUCCESS"); (2, "NLOPT_EPSVAL_REACHED"); (3, "NLOPT_FTOL_REACHED"); (4, "NLOPT_XTOL_REACHED");
     (5, "NLOPT_ITERSMAX_REACHED"); (6, "NLOPT_MAXTIME_REACHED");
     (-1, "NLOPT_GENERIC_FAILURE"); (-2, "NLOPT_INVALID_ARGS"); (-3, "NLOPT_OUT_OF_MEMORY"); (-4, "NLOPT_ROUNDOFF_LIMITED");
     (-5, "NLOPT_FORCED_STOP")]%string.

  (** The solver [pr] and its start vector [x] are what the user asked for: the
      algorithm, one variable per parameter with its value in the diagram and its
      bounds at the given distances, and the stopping criteria. *)
  Record as_requested o d (algorithm : string) (iters : Z) (eps kappa : option T) (pr : problem T) (x : list T) : Prop := {
    ar_algorithm : In (algorithm, pr_algorithm pr) nlopt_names;
    ar_local : pr_local pr = if String.eqb algorithm "AUGLAG" then Some "LD_VAR2"%string else None;
    ar_storage : pr_storage pr = if String.eqb algorithm "VAR" || String.eqb algorithm "TNEWTON" then Some 100 else None;
    ar_inner : pr_inner pr = if String.eqb algorithm "MMA" then Some 5 else None;
    ar_iters : pr_maxeval pr = iters;
    ar_eps : pr_stopval pr = eps;
    ar_kappa : pr_ftol pr = kappa;
    ar_dims : pr_dims pr = number_of_parameters o;
    ar_x : Z.of_nat (List.length x) = number_of_parameters o;
    ar_low : Z.of_nat (List.length (pr_low pr)) = number_of_parameters o;
    ar_up : Z.of_nat (List.length (pr_up pr)) = number_of_parameters o;
    ar_variables : forall k p, In (k, p) (o_params o) -> 0 <= k < number_of_parameters o /\ exists v, quantity d (p_slot p) = Ok v
      /\ nth_error x (Z.to_nat k) = Some v
      /\ nth_error (pr_low pr) (Z.to_nat k) = Some (option_map (fun b => nsub v (nabs b)) (p_low p))
      /\ nth_error (pr_up pr) (Z.to_nat k) = Some (option_map (fun b => nadd v (nabs b)) (p_up p))
  }.

  (** Automatic differentiation [ad] of the objective gives [G], with one entry per variable, on
      the diagram [d] and wherever the objective was evaluated before; it evaluates the
      objective at some points. *)
  Definition differentiates (ad : (list T -> eff (diagram T) T) -> list T -> eff (diagram T) (list T)) o tmax eta d
      (G : list T -> res (list T)) : Prop :=
    forall x ys, (exists zs, ad (optimize_form o tmax eta) x (after_evaluations o tmax eta ys d) = (after_evaluations o tmax eta zs d, G x))
      /\ forall g, G x = Ok g -> List.length g = List.length x.

  (** The Euclidean norm *)
  Definition euclidean_norm (x : list T) : T := nsqrt (fold_left nadd (map (fun v => nmul v v) x) n0).

  (** The optimizer with the results of a run *)
  Record reports o o' (x : list T) (loss : T) (evals result : Z) (g : list T) : Prop := {
    rp_params : o_params o' = o_params o;
    rp_cons : o_cons o' = o_cons o;
    rp_x : o_x o' = Some x;
    rp_penalty : o_penalty o' = Some loss;
    rp_evals : o_evals o' = Some evals;
    rp_status : exists status, In (result, status) nlopt_codes /\ o_status o' = Some status;
    rp_grad : o_grad o' = Some g;
    rp_norm : o_norm o' = Some (euclidean_norm g)
  }.
End Spec.
