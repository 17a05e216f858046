(** * What a user expects of bounds

    The words in which the property about the bounds of parameters is stated. *)

From Coq Require Import List ZArith Reals.
From Verif Require Import Py Num Diagram Topology Equilibrium EquilibriumNp Constraints Optimizer SpecOptimizer.
Import ListNotations.
Open Scope R_scope.

(** The parameter [p] of a quantity that was [v] allows it to become [q]: at most its
    lower bound below, and at most its upper bound above.  A bound that is not given
    allows everything. *)
Definition allowed (p : parameter R) (v q : R) : Prop :=
  match p_low p with Some b => v - Rabs b <= q | None => True end
  /\ match p_up p with Some b => q <= v + Rabs b | None => True end.

Section Solver.
  Context {T : Type} `{NumOps T}.
  Variable le : T -> T -> Prop.

  (** The solver evaluates and returns only points within the bounds of its problem. *)
  Inductive within (pr : problem T) : strategy T -> Prop :=
  | within_eval x grad k : in_bounds le pr x -> (forall y g, within pr (k y g)) -> within pr (SEval x grad k)
  | within_return x l e r : in_bounds le pr x -> within pr (SReturn x l e r)
  | within_roundoff l e r : within pr (SRoundoff l e r)
  | within_runtime : within pr SRuntime.

  (** A solver that respects bounds: if it starts within them, it stays within them. *)
  Definition respects_bounds (solver : problem T -> list T -> strategy T) : Prop :=
    forall pr x, in_bounds le pr x -> within pr (solver pr x).
End Solver.

(** [n] times the bounds of a parameter *)
Definition allowed_times (n : nat) (p : parameter R) (v q : R) : Prop :=
  match p_low p with Some b => v - INR n * Rabs b <= q | None => True end
  /\ match p_up p with Some b => q <= v + INR n * Rabs b | None => True end.

(** [n] runs of optimizers with solvers that respect bounds, one after the other, on the
    same diagram, each with its own settings; whatever they raise is caught.  All the
    optimizers hold the parameters of [o]. *)
Inductive solved (o : optimizer R) : nat -> diagram R -> diagram R -> Prop :=
| solved_not d : solved o 0 d d
| solved_again n d d1 d2 o1 o2 ad solver algorithm grad h iters eps kappa tmax eta r :
    solved o n d d1 ->
    obtained o1 -> o_params o1 = o_params o -> respects_bounds Rle solver ->
    solve ad solver algorithm grad h iters eps kappa tmax eta (o1, d1) = ((o2, d2), r) ->
    solved o (S n) d d2.
