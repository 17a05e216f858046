(** * What the optimizer prints, and how objects describe themselves

    compas_cem/optimization/optimizer.py again, with what [solve] prints, and the texts that
    [repr] makes of optimizers, edges and diagrams.

    Simplifications: a line of text is the data it shows.  Numbers stand for themselves rounded
    to six decimals (optimizer.py:274-275), running times are left out. *)

From Coq Require Import String List ZArith Bool.
From Verif Require Import Py Num Diagram Topology Equilibrium EquilibriumNp Constraints Optimizer Messages.
Import ListNotations.
Open Scope Z_scope.

(** The lines that are printed *)
Inductive printed (T : Type) : Type :=
| Rule                                   (* "----------" (optimizer.py:194, 277) *)
| Started (algorithm : string)           (* "Optimization with {} started!" (195) *)
| Sizes (parameters constraints : Z)     (* "# Parameters: {}, # Constraints {}" (196) *)
| ByDifferentiation                      (* "Computing gradients using automatic differentiation!" (206) *)
| ByDifferences (h : T)                  (* "Warning: Calculating gradients using finite differences with step size {}. ..." (212) *)
| EndedCorrectly                         (* "Optimization ended correctly!" (243) *)
| Halted                                 (* "Optimization was halted because roundoff errors limited progress" (245) *)
| MayBeUseful                            (* "Results may still be useful though!" (246) *)
| Failed                                 (* "Optimization failed due to a runtime error!" (249) *)
| RunningTime                            (* "Optimization total runtime: {} seconds" (250, 272) *)
| Evaluations (n : Z)                    (* "Number of evaluations incurred: {}" (273) *)
| FinalValue (x : T)                     (* "Final value of the objective function: {}" (274) *)
| NormOfGradient (x : T)                 (* "Norm of the gradient of the objective function: {}" (275) *)
| Status (s : string)                    (* "Optimization status: {}" (276) *)
| Finding (m : message).                 (* what form finding prints (equilibrium/force.py) *)
Arguments Rule {T}.
Arguments Started {T} _.
Arguments Sizes {T} _ _.
Arguments ByDifferentiation {T}.
Arguments ByDifferences {T} _.
Arguments EndedCorrectly {T}.
Arguments Halted {T}.
Arguments MayBeUseful {T}.
Arguments Failed {T}.
Arguments RunningTime {T}.
Arguments Evaluations {T} _.
Arguments FinalValue {T} _.
Arguments NormOfGradient {T} _.
Arguments Status {T} _.
Arguments Finding {T} _.

Section SolveOut.
  Context {T : Type} `{NumOps T}.

  (** [if verbose: print(...)] *)
  Definition only (verbose : bool) (ls : list (printed T)) : list (printed T) := if verbose then ls else [].

  (** Optimizer.solve (optimizer.py:134-280): the lines printed, the optimizer and the diagram
      afterwards, and the result.  The objective prints nothing: it calls equilibrium_state_numpy
      without verbose (356).  [static_equilibrium(topology)] at the end prints the warnings. *)
  Definition solve_out (ad : (list T -> eff (diagram T) T) -> list T -> eff (diagram T) (list T))
      (solver : problem T -> list T -> strategy T)
      (algorithm grad : string) (h : T) (iters : Z) (eps kappa : option T) (tmax : Z) (eta : T) (verbose : bool)
      (od : optimizer T * diagram T) : list (printed T) * ((optimizer T * diagram T) * res (diagram T)) :=
    let '(o, d) := od in
    let l1 := only verbose [Rule; Started algorithm; Sizes (number_of_parameters o) (number_of_constraints o)] in
    match check_optimization_sanity o with
    | Err e => (l1, (od, Err e))
    | Ok _ =>
        match gradient_function ad o grad h tmax eta with
        | Err e => (l1, (od, Err e))
        | Ok gf =>
            let l2 := l1 ++ only verbose [if String.eqb grad "AD" then ByDifferentiation else ByDifferences h] in
            match (let* x := optimization_parameters o d in
                   let* lu := optimization_bounds o d in
                   let* pr := nlopt_solver algorithm (number_of_parameters o) (snd lu) (fst lu) iters eps kappa in
                   Ok (x, pr)) with
            | Err e => (l2, (od, Err e))
            | Ok (x, pr) =>
                let f := objective_function_numpy (optimize_form o tmax eta) gf in
                let '((d', c'), a) := run_strategy f (solver pr x) (d, d) in
                let leave ls o' :=
                  let form := static_equilibrium_out d' None 100 neps6 false false in
                  (ls ++ map Finding (said form), ((o', d'), outcome form)) in
                let finish ls x_opt loss evals result :=
                  match nlopt_status result with
                  | Err e => (ls, ((o, d'), Err e))
                  | Ok status =>
                      let o' := with_result o x_opt loss evals status in
                      match gf x_opt (repeat n0 (List.length x_opt)) c' with
                      | (_, Err e) => (ls, ((o', d'), Err e))
                      | (_, Ok g) =>
                          leave (ls ++ only verbose [RunningTime; Evaluations evals; FinalValue loss; NormOfGradient (array_norm g);
                                                     Status status; Rule])
                                (with_gradient o' g (array_norm g))
                      end
                  end in
                match a with
                | Err e => (l2, ((o, d'), Err e))
                | Ok (AReturn x_opt loss evals result) => finish (l2 ++ only verbose [EndedCorrectly]) x_opt loss evals result
                | Ok (ARoundoff loss evals result) =>
                    match optimization_parameters o d' with
                    | Err e => (l2 ++ [Halted; MayBeUseful], ((o, d'), Err e))
                    | Ok x_opt => finish (l2 ++ [Halted; MayBeUseful]) x_opt loss evals result
                    end
                | Ok ARuntime => leave (l2 ++ [Failed; RunningTime]) o
                end
            end
        end
    end.

  (** Optimizer.__repr__ (optimizer.py:381-385): the numbers of parameters and constraints, and the status *)
  Definition optimizer_repr (o : optimizer T) : Z * Z * option string :=
    (number_of_parameters o, number_of_constraints o, o_status o).

  (** int(copysign(1, x)) *)
  Definition sign_of (x : T) : Z := if nltb (ncopysign n1 x) n0 then -1 else 1.

  (** TrailEdge.__repr__ (elements/trail.py:24-34) and DeviationEdge.__repr__ (elements/deviation.py:15-24):
      the magnitude, the state and the plane *)
  Definition edge_repr (e : edge_elem T) : T * Z * option (vec T * vec T) :=
    match e with
    | TrailEdge l p => (nabs l, sign_of l, p)
    | DeviationEdge f => (nabs f, sign_of f, None)
    end.

  (** Diagram.__repr__ (diagrams/diagram.py:278-292), used by FormDiagram *)
  Definition diagram_repr (d : diagram T) : res (list (string * Z)) :=
    let* l := number_of_loaded_nodes d in
    Ok [("Edges"%string, Z.of_nat (List.length (edges d)));
        ("Nodes"%string, Z.of_nat (List.length (nodes d)));
        ("Support Nodes"%string, number_of_support_nodes d);
        ("Loaded nodes"%string, l)].

  (** TopologyDiagram.__repr__ (diagrams/topology/topology.py:955-968) *)
  Definition topology_repr (d : diagram T) : res (list (string * Z)) :=
    let* l := number_of_loaded_nodes d in
    Ok [("Edges"%string, Z.of_nat (List.length (edges d)));
        ("Trail edges"%string, number_of_trail_edges d);
        ("Deviation edges"%string, number_of_deviation_edges d);
        ("Nodes"%string, Z.of_nat (List.length (nodes d)));
        ("Support nodes"%string, number_of_support_nodes d);
        ("Loaded nodes"%string, l);
        ("Trails"%string, number_of_trails d);
        ("Auxiliary trails"%string, number_of_auxiliary_trails d)].
End SolveOut.
