(** * Vocabulary of the derivatives of the penalty, over the real numbers *)

From Coq Require Import List ZArith Bool Reals.
From Verif Require Import Py Num Diagram Topology Constraints Optimizer RVec SpecStatics SpecConstraints SpecOptimizer.
Import ListNotations.
Open Scope R_scope.

(** The polyline [l] has at most one point nearest to [p]. *)
Definition one_nearest (l : list rvec) (p : rvec) : Prop :=
  forall q r, on_polyline l q -> on_polyline l r ->
    (forall z, on_polyline l z -> dist p q <= dist p z) -> (forall z, on_polyline l z -> dist p r <= dist p z) -> q = r.

(** The goal speaks of something the topology [d] has, and the form [f] is not at a place
    where the penalty has a kink: the ends of an edge whose length or direction is asked
    for are apart, the edge is not square to the direction asked for, and no two points of
    a polyline are equally near to the node that shall lie on it. *)
Definition smooth_goal (d f : diagram R) (g : goal R) : Prop :=
  match g with
  | PointGoal n _ | LineGoal n _ _ => In n (nodes d)
  | PlaneGoal n _ nrm => In n (nodes d) /\ nrm <> v0
  | PolylineGoal n l => In n (nodes d) /\ (2 <= length l)%nat /\ one_nearest l (position f n)
  | TrailForceGoal e _ => In e (trail_edges d)
  | ReactionGoal n _ => is_node_support d n = Ok true
  | LengthGoal e _ => In (fst e) (nodes d) /\ In (snd e) (nodes d) /\ position f (fst e) <> position f (snd e)
  | DirectionGoal e t => In (fst e) (nodes d) /\ In (snd e) (nodes d) /\ position f (fst e) <> position f (snd e)
      /\ dot t (position f (snd e) -v position f (fst e)) <> 0
  end.

(** [l] is the partial derivative of [g] with respect to the variable number [i] at [x]:
    [g] has a value at [x] and at all points of a small interval around it in direction
    [i], and its difference quotients tend to [l]. *)
Definition partial_derivative (g : list R -> res R) (x : list R) (i : nat) (l : R) : Prop :=
  forall epsilon, 0 < epsilon -> exists delta, 0 < delta /\ forall h, h <> 0 -> Rabs h < delta ->
    exists y0 y, g x = Ok y0 /\ g (bump x i h) = Ok y /\ Rabs ((y - y0) / h - l) < epsilon.
