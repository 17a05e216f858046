(** * The finite-difference gradient and the derivatives of the penalty (C103)

    Generated by tools/gen_props.py from the lemmas of GradientThms.v and WitnessGradient.v.
    The vocabulary is in SpecStatics.v, SpecEquilibrium.v, SpecOptimizer.v, SpecUnique.v,
    SpecSmooth.v, SpecConstraints.v and SpecGradient.v. *)

From Coq Require Import String List ZArith Bool Lia Reals Lra.
From Verif Require Import Py Num Diagram Topology Equilibrium History Fixtures SpecDiagram SpecTopology
  SpecEquilibrium SpecStatics RVec EqThms StaticsThms Constraints Optimizer SpecOptimizer SpecUnique UniqueThms SpecSmooth SmoothThms
  SpecGradient GradientThms Witness WitnessEq WitnessUnique WitnessSmooth WitnessGradient.
Import ListNotations.
Open Scope Z_scope.

(** With smaller and smaller steps the finite-difference gradient tends to the partial
  derivatives of the penalty, at every point where the form is sound, clear of the
  tolerance of planes, and clear of the kinks of the constraints. *)
Theorem C103_gradient : forall (o : optimizer R) tmax eta d x d' form,
  obtained o -> keys_in_range o -> NoDup (addressed o) -> (forall s, In s (addressed o) -> present d s) ->
  Z.of_nat (List.length x) = number_of_parameters o ->
  reachable d -> ready d -> direct_only d -> (1 <= tmax)%Z -> (0 <= eta)%R ->
  update_parameters o x d = (d', Ok tt) -> static_equilibrium d' None tmax eta false = Ok form ->
  nonzero_trails d' -> carrying d' form -> definite d' form -> apart d' form ->
  (forall k c, In (k, c) (o_cons o) -> smooth_goal d' form (c_goal c)) ->
  exists gr, List.length gr = List.length x
    /\ (forall i v, nth_error gr i = Some v -> partial_derivative (objective o tmax eta d) x i v)
    /\ forall epsilon, (0 < epsilon)%R -> exists delta, (0 < delta)%R /\ forall h, h <> 0%R -> (Rabs h < delta)%R ->
         exists ds, Forall2 (fun a b => (Rabs (a - b) < epsilon)%R) ds gr
           /\ forall ys grad, List.length grad = List.length x ->
                snd (grad_finite_differences (optimize_form o tmax eta) h x grad (after_evaluations o tmax eta ys d)) = Ok ds.
Proof. exact c103_gradient. Qed.
(** Without the condition that no trail edge meets its plane at the tolerance, the
  finite-difference gradient may grow without bound as the step shrinks: here it is at
  least sixteen over the step. *)
Theorem C103_jump : exists (o : optimizer R) d x form,
  obtained o /\ keys_in_range o /\ NoDup (addressed o) /\ (forall s, In s (addressed o) -> present d s)
  /\ Z.of_nat (List.length x) = number_of_parameters o
  /\ reachable d /\ ready d /\ direct_only d /\ update_parameters o x d = (d, Ok tt)
  /\ static_equilibrium d None 100 (/ 1000000)%R false = Ok form
  /\ nonzero_trails d /\ carrying d form /\ apart d form
  /\ (forall k c, In (k, c) (o_cons o) -> smooth_goal d form (c_goal c))
  /\ forall h, h <> 0%R -> exists v, (16 / Rabs h <= Rabs v)%R
     /\ forall ys grad, List.length grad = List.length x ->
          snd (grad_finite_differences (optimize_form o 100 (/ 1000000)%R) h x grad (after_evaluations o 100 (/ 1000000)%R ys d)) = Ok [v].
Proof. exact c103_jump. Qed.
(** Without the condition that no two points of a polyline are equally near, the
  differences with a positive and a negative step stay apart however small the step is:
  the penalty has no derivative. *)
Theorem C103_kink : exists (o : optimizer R) d x form n l,
  obtained o /\ keys_in_range o /\ NoDup (addressed o) /\ (forall s, In s (addressed o) -> present d s)
  /\ Z.of_nat (List.length x) = number_of_parameters o
  /\ reachable d /\ ready d /\ direct_only d /\ update_parameters o x d = (d, Ok tt)
  /\ static_equilibrium d None 100 (/ 1000000)%R false = Ok form
  /\ nonzero_trails d /\ carrying d form /\ definite d form /\ apart d form
  /\ dvalues (o_cons o) = [mkConstraint (PolylineGoal n l) 1%R] /\ In n (nodes d) /\ (2 <= List.length l)%nat
  /\ forall h, (0 < h <= 1)%R -> exists v w, (v <= - / 2)%R /\ (/ 2 <= w)%R
     /\ forall ys grad, List.length grad = List.length x ->
          snd (grad_finite_differences (optimize_form o 100 (/ 1000000)%R) h x grad (after_evaluations o 100 (/ 1000000)%R ys d)) = Ok [v]
          /\ snd (grad_finite_differences (optimize_form o 100 (/ 1000000)%R) (- h)%R x grad (after_evaluations o 100 (/ 1000000)%R ys d)) = Ok [w].
Proof. exact c103_kink. Qed.
Print Assumptions C103_gradient.
Print Assumptions C103_jump.
Print Assumptions C103_kink.

(** ** The hypotheses can be met *)

(** The tension chain with three variables (a load, a coordinate of the origin, a length) and eight goals, one of each kind. *)
Example C103_nonvacuous : exists gr, List.length gr = 3%nat
  /\ forall epsilon, (0 < epsilon)%R -> exists delta, (0 < delta)%R /\ forall h, h <> 0%R -> (Rabs h < delta)%R ->
       exists ds, Forall2 (fun a b => (Rabs (a - b) < epsilon)%R) ds gr
         /\ snd (grad_finite_differences (optimize_form chain_optimizer 100 (/ 1000000)%R) h chain_variables [5; 5; 5]%R rchain) = Ok ds.
Proof.
  destruct chain_problem as (B1&B2&B3&B4&B5).
  destruct (C103_gradient chain_optimizer 100 (/ 1000000)%R rchain chain_variables rchain (form_of rchain) B1 B2 B3 B4 B5
    rchain_reachable rchain_ready rchain_direct ltac:(lia) ltac:(lra) chain_update
    (form_of_Ok rchain rchain_reachable rchain_ready rchain_direct) rchain_nonzero chain_carrying chain_definite
    (chain_apart (form_of rchain)) chain_smooth_goals) as (gr&L&_&T).
  exists gr. split; [exact L|]. intros epsilon P. destruct (T epsilon P) as (delta&Pd&Hd). exists delta. split; [exact Pd|].
  intros h Nh Lh. destruct (Hd h Nh Lh) as (ds&Fd&Ed). exists ds. split; [exact Fd|].
  specialize (Ed [] [5; 5; 5]%R eq_refl). rewrite after_none in Ed. exact Ed.
Qed.
