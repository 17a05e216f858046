(** * Optimization: parameters, gradients and the optimizer

    Model of compas_cem/optimization/parameters/*.py, grad.py, objective_func.py,
    nlopt.py, optimizer.py and proxy.py.

    Three things are external: the NLopt library, which may evaluate the objective
    wherever and as often as it likes ([strategy]), automatic differentiation (an
    arbitrary function [ad]) and the clock (time_opt is not modelled).  Data
    (serialization) is in Serialize.v. *)

From Coq Require Import String List ZArith Bool.
From Verif Require Import Py Num Diagram Topology Equilibrium EquilibriumNp Constraints.
Import ListNotations.
Open Scope Z_scope.

(** Strings as keys of dictionaries *)
#[global] Instance Eqb_string : Eqb string := {| eqb := String.eqb; eqb_spec := String.eqb_spec |}.

(** ** Parameters *)

(** Attribute names of node parameters (parameters/origin.py:19,32,45 and load.py:19,32,45) *)
Inductive nattr : Type := AX | AY | AZ | AQX | AQY | AQZ.

(** Attribute names of edge parameters (parameters/deviation.py:18, trail.py:18) *)
Inductive eattr : Type := AForce | ALength.

(** The quantity a parameter addresses: the class of the parameter fixes the
    attribute name, [key()] the node or edge (parameter.py:17-22, 30-34, 64-68). *)
Inductive slot : Type :=
| NodeSlot (key : Z) (attr : nattr)
| EdgeSlot (key : ekey) (attr : eattr).

(** A parameter with its bounds (parameter.py:17-22) *)
Record parameter (T : Type) : Type := mkParam {
  p_slot : slot;
  p_low : option T;
  p_up : option T
}.
Arguments mkParam {T} _ _ _.
Arguments p_slot {T} _.
Arguments p_low {T} _.
Arguments p_up {T} _.

(** ** The optimizer object (optimizer.py:37-51); time_opt is left out *)
Record optimizer (T : Type) : Type := mkOpt {
  o_params : dict Z (parameter T);
  o_cons : dict Z (constraint T);
  o_pkey : Z;
  o_ckey : Z;
  o_x : option (list T);        (* x_opt *)
  o_penalty : option T;
  o_evals : option Z;
  o_status : option string;
  o_grad : option (list T);     (* gradient *)
  o_norm : option T             (* gradient_norm *)
}.
Arguments mkOpt {T} _ _ _ _ _ _ _ _ _ _.
Arguments o_params {T} _.
Arguments o_cons {T} _.
Arguments o_pkey {T} _.
Arguments o_ckey {T} _.
Arguments o_x {T} _.
Arguments o_penalty {T} _.
Arguments o_evals {T} _.
Arguments o_status {T} _.
Arguments o_grad {T} _.
Arguments o_norm {T} _.

(** ** NLopt *)

(** The settings of an nlopt.opt object made by nlopt_solver *)
Record problem (T : Type) : Type := mkProblem {
  pr_algorithm : string;
  pr_dims : Z;
  pr_local : option string;          (* set_local_optimizer *)
  pr_storage : option Z;             (* set_vector_storage *)
  pr_inner : option Z;               (* set_param("inner_maxeval", ...) *)
  pr_low : list (option T);          (* set_lower_bounds, [None] = -inf *)
  pr_up : list (option T);           (* set_upper_bounds, [None] = +inf *)
  pr_maxeval : Z;
  pr_ftol : option T;                (* set_ftol_abs *)
  pr_stopval : option T
}.
Arguments mkProblem {T} _ _ _ _ _ _ _ _ _ _.
Arguments pr_algorithm {T} _.
Arguments pr_dims {T} _.
Arguments pr_local {T} _.
Arguments pr_storage {T} _.
Arguments pr_inner {T} _.
Arguments pr_low {T} _.
Arguments pr_up {T} _.
Arguments pr_maxeval {T} _.
Arguments pr_ftol {T} _.
Arguments pr_stopval {T} _.

(** What [opt.optimize(x)] does: it calls the objective with a point and a gradient
    array (empty if it wants none), and goes on with the value and the filled
    array; in the end it returns a point, raises RoundoffLimited, or raises
    RuntimeError.  The three numbers are last_optimum_value(), get_numevals() and
    last_optimize_result(). *)
Inductive strategy (T : Type) : Type :=
| SEval (x grad : list T) (k : T -> list T -> strategy T)
| SReturn (x : list T) (loss : T) (evals result : Z)
| SRoundoff (loss : T) (evals result : Z)
| SRuntime.
Arguments SEval {T} _ _ _.
Arguments SReturn {T} _ _ _ _.
Arguments SRoundoff {T} _ _ _.
Arguments SRuntime {T}.

(** How [opt.optimize(x)] ends *)
Inductive answer (T : Type) : Type :=
| AReturn (x : list T) (loss : T) (evals result : Z)
| ARoundoff (loss : T) (evals result : Z)
| ARuntime.
Arguments AReturn {T} _ _ _ _.
Arguments ARoundoff {T} _ _ _.
Arguments ARuntime {T}.

(** Computations on one component of a pair of objects *)
Definition on_fst {S S' A} (m : eff S A) : eff (S * S') A :=
  fun s => let '(s1, r) := m (fst s) in ((s1, snd s), r).
Definition on_snd {S S' A} (m : eff S' A) : eff (S * S') A :=
  fun s => let '(s2, r) := m (snd s) in ((fst s, s2), r).

(** numpy arrays of floats: [x[i]] and [x[i] = v] for an index [i >= 0] *)
Definition aget {A} (x : list A) (i : Z) : res A :=
  if Z.ltb i 0 then Err IndexError else
  match nth_error x (Z.to_nat i) with Some a => Ok a | None => Err IndexError end.
Fixpoint set_nth {A} (x : list A) (i : nat) (v : A) : list A :=
  match x, i with
  | [], _ => []
  | _ :: x, O => v :: x
  | a :: x, S i => a :: set_nth x i v
  end.
Definition aset {A} (x : list A) (i : Z) (v : A) : res (list A) :=
  if Z.ltb i 0 || Z.leb (Z.of_nat (List.length x)) i then Err IndexError else Ok (set_nth x (Z.to_nat i) v).

Section Optimizer.
  Context {T : Type} `{NumOps T}.

  (** Reading and writing one attribute: node_attribute(key, name), edge_attribute(key, name) *)
  Definition nattr_get (a : nattr) (x : node_attr T) : T :=
    match a with
    | AX => vx (na_xyz x) | AY => vy (na_xyz x) | AZ => vz (na_xyz x)
    | AQX => vx (na_load x) | AQY => vy (na_load x) | AQZ => vz (na_load x)
    end.
  Definition with_vx (p : vec T) v := V3 v (vy p) (vz p).
  Definition with_vy (p : vec T) v := V3 (vx p) v (vz p).
  Definition with_vz (p : vec T) v := V3 (vx p) (vy p) v.
  Definition nattr_set (a : nattr) (v : T) (x : node_attr T) : node_attr T :=
    match a with
    | AX => set_xyz x (with_vx (na_xyz x) v)
    | AY => set_xyz x (with_vy (na_xyz x) v)
    | AZ => set_xyz x (with_vz (na_xyz x) v)
    | AQX => set_load x (with_vx (na_load x) v)
    | AQY => set_load x (with_vy (na_load x) v)
    | AQZ => set_load x (with_vz (na_load x) v)
    end.
  Definition eattr_get (a : eattr) (x : edge_attr T) : T :=
    match a with AForce => ea_force x | ALength => ea_length x end.
  Definition eattr_set (a : eattr) (v : T) (x : edge_attr T) : edge_attr T :=
    match a with AForce => set_force x v | ALength => set_length x v end.

  Definition slot_get (d : diagram T) (s : slot) : res T :=
    match s with
    | NodeSlot n a => let* x := node_get d n in Ok (nattr_get a x)
    | EdgeSlot e a => let* x := edge_get d e in Ok (eattr_get a x)
    end.
  Definition slot_set (s : slot) (v : T) : eff (diagram T) unit :=
    match s with
    | NodeSlot n a => node_set n (nattr_set a v)
    | EdgeSlot e a => edge_set e (eattr_set a v)
    end.

  (** NodeParameter.start_value (parameters/node.py:18-23), EdgeParameter.start_value (edge.py:20-25) *)
  Definition start_value (d : diagram T) (p : parameter T) : res T := slot_get d (p_slot p).

  (** Parameter.bound_low (parameter.py:36-48); [None] is float("-inf") *)
  Definition bound_low (d : diagram T) (p : parameter T) : res (option T) :=
    match p_low p with
    | Some b => let* x := start_value d p in Ok (Some (nsub x (nabs b)))
    | None => Ok None
    end.

  (** Parameter.bound_up (parameter.py:50-62); [None] is float("inf") *)
  Definition bound_up (d : diagram T) (p : parameter T) : res (option T) :=
    match p_up p with
    | Some b => let* x := start_value d p in Ok (Some (nadd x (nabs b)))
    | None => Ok None
    end.

  (** ** The problem *)

  (** Optimizer.__init__ (optimizer.py:37-51) *)
  Definition new_optimizer : optimizer T := mkOpt [] [] (-1) (-1) None None None None None None.

  Definition with_params (o : optimizer T) ps k :=
    mkOpt ps (o_cons o) k (o_ckey o) (o_x o) (o_penalty o) (o_evals o) (o_status o) (o_grad o) (o_norm o).
  Definition with_cons (o : optimizer T) cs k :=
    mkOpt (o_params o) cs (o_pkey o) k (o_x o) (o_penalty o) (o_evals o) (o_status o) (o_grad o) (o_norm o).
  Definition with_result (o : optimizer T) x penalty evals status :=
    mkOpt (o_params o) (o_cons o) (o_pkey o) (o_ckey o) (Some x) (Some penalty) (Some evals) (Some status) (o_grad o) (o_norm o).
  Definition with_gradient (o : optimizer T) g n :=
    mkOpt (o_params o) (o_cons o) (o_pkey o) (o_ckey o) (o_x o) (o_penalty o) (o_evals o) (o_status o) (Some g) (Some n).

  (** number_of_parameters, number_of_constraints (optimizer.py:57-67) *)
  Definition number_of_parameters (o : optimizer T) : Z := Z.of_nat (List.length (o_params o)).
  Definition number_of_constraints (o : optimizer T) : Z := Z.of_nat (List.length (o_cons o)).

  (** add_parameter (optimizer.py:73-78) *)
  Definition add_parameter (p : parameter T) : eff (optimizer T) unit :=
    fun o => (with_params o (dset (o_params o) (o_pkey o + 1) p) (o_pkey o + 1), Ok tt).

  (** remove_parameter (optimizer.py:80-86) *)
  Definition remove_parameter (k : Z) : eff (optimizer T) unit :=
    fun o => if dmem (o_params o) k then (with_params o (ddel (o_params o) k) (o_pkey o), Ok tt) else (o, Err KeyError).

  (** add_constraint (optimizer.py:92-97) *)
  Definition add_constraint (c : constraint T) : eff (optimizer T) unit :=
    fun o => (with_cons o (dset (o_cons o) (o_ckey o + 1) c) (o_ckey o + 1), Ok tt).

  (** remove_constraint (optimizer.py:99-105) *)
  Definition remove_constraint (k : Z) : eff (optimizer T) unit :=
    fun o => if dmem (o_cons o) k then (with_cons o (ddel (o_cons o) k) (o_ckey o), Ok tt) else (o, Err KeyError).

  (** optimization_parameters (optimizer.py:286-297) *)
  Definition optimization_parameters (o : optimizer T) (d : diagram T) : res (list T) :=
    fold_res (fun x (kp : Z * parameter T) => let* v := start_value d (snd kp) in aset x (fst kp) v)
      (o_params o) (repeat n0 (List.length (o_params o))).

  (** optimization_bounds (optimizer.py:299-311) *)
  Definition optimization_bounds (o : optimizer T) (d : diagram T) : res (list (option T) * list (option T)) :=
    fold_res (fun (lu : list (option T) * list (option T)) (kp : Z * parameter T) =>
      let* v := bound_low d (snd kp) in
      let* l := aset (fst lu) (fst kp) v in
      let* w := bound_up d (snd kp) in
      let* u := aset (snd lu) (fst kp) w in
      Ok (l, u))
      (o_params o) (repeat (Some n0) (List.length (o_params o)), repeat (Some n0) (List.length (o_params o))).

  (** _update_parameters (optimizer.py:317-333).  Every modelled parameter is a node
      or an edge parameter, so the TypeError is not reached. *)
  Definition update_parameters (o : optimizer T) (x : list T) : eff (diagram T) unit :=
    eloop (fun _ (kp : Z * parameter T) =>
      do* v := eget (fun _ => aget x (fst kp)) in slot_set (p_slot (snd kp)) v) (o_params o) tt.

  (** _optimize_form (optimizer.py:352-359) *)
  Definition optimize_form (o : optimizer T) (tmax : Z) (eta : T) (x : list T) : eff (diagram T) T :=
    do* _ := update_parameters o x in
    eget (fun d => let* st := equilibrium_state_numpy d tmax eta false in
                   calculate_penalty (dvalues (o_cons o)) st).

  (** check_optimization_sanity (optimizer.py:365-375) *)
  Definition check_optimization_sanity (o : optimizer T) : res unit :=
    if Nat.eqb (List.length (o_params o)) 0 then Err (ValueError "No parameters defined.")
    else if Nat.eqb (List.length (o_cons o)) 0 then Err (ValueError "No constraints defined.")
    else Ok tt.

  (** ** Gradients *)

  (** grad_finite_differences (grad.py:26-46).  [S] is the object [f] works on.  The
      working copy of x and the gradient are both carried through the loop. *)
  Definition grad_finite_differences {S} (f : list T -> eff S T) (h : T) (x grad : list T) : eff S (list T) :=
    do* fx0 := f x in
    do* r := eloop (fun (xg : list T * list T) (i : nat) =>
      let '(x', g) := xg in
      do* xi := eget (fun _ => aget x' (Z.of_nat i)) in
      do* x1 := eget (fun _ => aset x' (Z.of_nat i) (nadd xi h)) in
      do* fx1 := f x1 in
      do* g := eget (fun _ => aset g (Z.of_nat i) (ndiv (nsub fx1 fx0) h)) in
      do* x2 := eget (fun _ => aset x1 (Z.of_nat i) xi) in
      eret (x2, g)) (seq 0 (List.length x)) (x, grad) in
    eret (snd r).

  (** grad_autograd (grad.py:12-19): [g] is autograd's gradient function.
      Simplification: numpy would also accept an array of length one. *)
  Definition grad_autograd {S} (g : list T -> eff S (list T)) (x grad : list T) : eff S (list T) :=
    do* r := g x in
    if Nat.eqb (List.length r) (List.length grad) then eret r else eraise (ValueError "could not broadcast").

  (** objective_function_numpy (objective_func.py:4-12): the value and the array *)
  Definition objective_function_numpy {S S'} (f : list T -> eff S T) (gf : list T -> list T -> eff S' (list T))
      (x grad : list T) : eff (S * S') (T * list T) :=
    do* fx := on_fst (f x) in
    if Nat.ltb 0 (List.length grad) then
      do* g := on_snd (gf x grad) in eret (fx, g)
    else eret (fx, grad).

  (** ** NLopt wrapper *)

  (** nlopt_algorithms (nlopt.py:48-81): names, and names of the constants of nlopt *)
  Definition nlopt_algorithms : dict string string :=
    [("SLSQP", "LD_SLSQP"); ("MMA", "LD_MMA"); ("LBFGS", "LD_LBFGS"); ("TNEWTON", "LD_TNEWTON"); ("VAR", "LD_VAR2");
     ("AUGLAG", "LD_AUGLAG")]%string.

  (** nlopt_algorithm (nlopt.py:17-45) *)
  Definition nlopt_algorithm (name : string) : res string := dgetr nlopt_algorithms name.

  (** nlopt_status (nlopt.py:84-116) *)
  Definition nlopt_status (c : Z) : res string :=
    match c with
    | 1 => Ok "NLOPT_SUCCESS" | 2 => Ok "NLOPT_EPSVAL_REACHED" | 3 => Ok "NLOPT_FTOL_REACHED"
    | 4 => Ok "NLOPT_XTOL_REACHED" | 5 => Ok "NLOPT_ITERSMAX_REACHED" | 6 => Ok "NLOPT_MAXTIME_REACHED"
    | -1 => Ok "NLOPT_GENERIC_FAILURE" | -2 => Ok "NLOPT_INVALID_ARGS" | -3 => Ok "NLOPT_OUT_OF_MEMORY"
    | -4 => Ok "NLOPT_ROUNDOFF_LIMITED" | -5 => Ok "NLOPT_FORCED_STOP"
    | _ => Err KeyError
    end%string.

  (** nlopt_solver (nlopt.py:119-149); the objective is passed to [run_strategy] *)
  Definition nlopt_solver (algorithm : string) (dims : Z) (up low : list (option T)) (iters : Z) (eps ftol : option T)
      : res (problem T) :=
    let* a := nlopt_algorithm algorithm in
    let* local := if String.eqb algorithm "AUGLAG" then (let* v := nlopt_algorithm "VAR" in Ok (Some v)) else Ok None in
    Ok (mkProblem a dims local
          (if String.eqb algorithm "VAR" || String.eqb algorithm "TNEWTON" then Some 100 else None)
          (if String.eqb algorithm "MMA" then Some 5 else None)
          low up iters ftol eps).

  (** opt.optimize(x) with an objective; an exception of the objective propagates. *)
  Fixpoint run_strategy {S} (f : list T -> list T -> eff S (T * list T)) (s : strategy T) : eff S (answer T) :=
    match s with
    | SEval x grad k => do* fg := f x grad in run_strategy f (k (fst fg) (snd fg))
    | SReturn x l n r => eret (AReturn x l n r)
    | SRoundoff l n r => eret (ARoundoff l n r)
    | SRuntime => eret ARuntime
    end.

  (** ** Optimizer.solve (optimizer.py:134-280) *)

  (** Lines 202-213: the gradient function; its diagram is a copy of the topology. *)
  Definition gradient_function (ad : (list T -> eff (diagram T) T) -> list T -> eff (diagram T) (list T))
      (o : optimizer T) (grad : string) (h : T) (tmax : Z) (eta : T) : res (list T -> list T -> eff (diagram T) (list T)) :=
    if String.eqb grad "AD" then Ok (grad_autograd (ad (optimize_form o tmax eta)))
    else if String.eqb grad "FD" then Ok (grad_finite_differences (optimize_form o tmax eta) h)
    else Err (ValueError "Gradient method").

  (** np.linalg.norm *)
  Definition array_norm (x : list T) : T := nsqrt (fold_left (fun acc v => nadd acc (nmul v v)) x n0).

  (** static_equilibrium(topology) with the default tmax and eta (equilibrium/force.py:18) *)
  Definition default_form (d : diagram T) : res (diagram T) := static_equilibrium d None 100 neps6 false.

  (** Lines 198-235: everything up to the solver object *)
  Definition prepare (ad : (list T -> eff (diagram T) T) -> list T -> eff (diagram T) (list T))
      (o : optimizer T) (d : diagram T) (algorithm grad : string) (h : T) (iters : Z) (eps kappa : option T) (tmax : Z) (eta : T)
      : res ((list T -> list T -> eff (diagram T) (list T)) * list T * problem T) :=
    let* _ := check_optimization_sanity o in
    let* gf := gradient_function ad o grad h tmax eta in
    let* x := optimization_parameters o d in
    let* lu := optimization_bounds o d in
    let* pr := nlopt_solver algorithm (number_of_parameters o) (snd lu) (fst lu) iters eps kappa in
    Ok (gf, x, pr).

  (** Lines 198-280 *)
  Definition solve (ad : (list T -> eff (diagram T) T) -> list T -> eff (diagram T) (list T))
      (solver : problem T -> list T -> strategy T)
      (algorithm grad : string) (h : T) (iters : Z) (eps kappa : option T) (tmax : Z) (eta : T)
      : eff (optimizer T * diagram T) (diagram T) :=
    fun od =>
      let '(o, d) := od in
      match prepare ad o d algorithm grad h iters eps kappa tmax eta with
      | Err e => (od, Err e)
      | Ok (gf, x, pr) =>
          let f := objective_function_numpy (optimize_form o tmax eta) gf in
          let '((d', c'), a) := run_strategy f (solver pr x) (d, d) in
          let finish x_opt loss evals result :=
            match nlopt_status result with
            | Err e => ((o, d'), Err e)
            | Ok status =>
                let o' := with_result o x_opt loss evals status in
                match gf x_opt (repeat n0 (List.length x_opt)) c' with
                | (_, Err e) => ((o', d'), Err e)
                | (_, Ok g) => ((with_gradient o' g (array_norm g), d'), default_form d')
                end
            end in
          match a with
          | Err e => ((o, d'), Err e)
          | Ok (AReturn x_opt loss evals result) => finish x_opt loss evals result
          | Ok (ARoundoff loss evals result) =>
              match optimization_parameters o d' with
              | Err e => ((o, d'), Err e)
              | Ok x_opt => finish x_opt loss evals result
              end
          | Ok ARuntime => ((o, d'), default_form d')
          end
      end.

  (** solve_proxy (proxy.py:8-95) in the same process: the diagram after solving, the form and
      the results.  Through a proxy: Remote.v. *)
  Definition proxy_optimizer (cs : list (constraint T)) (ps : list (parameter T)) : optimizer T :=
    fst (eloop (fun _ p => add_parameter p) ps tt (fst (eloop (fun _ c => add_constraint c) cs tt new_optimizer))).

  Definition solve_proxy ad solver (d : diagram T) (cs : list (constraint T)) (ps : list (parameter T))
      (algorithm : string) (iters : Z) (h : T) (eps kappa : option T) (tmax : Z) (eta : T)
      : (optimizer T * diagram T) * res (diagram T) :=
    solve ad solver algorithm "AD" h iters eps kappa tmax eta (proxy_optimizer cs ps, d).
End Optimizer.
