(** * Vocabulary of constraints met by a form, over the real numbers

    In terms of what can be read off a form diagram: the coordinates of its nodes, the
    forces in its edges and the reactions at its supports. *)

From Coq Require Import List ZArith Bool Reals.
From Verif Require Import Py Num Diagram Topology Constraints RVec SpecStatics SpecConstraints.
Import ListNotations.
Open Scope R_scope.

(** How far a form is from meeting a goal *)
Definition form_deviates (form : diagram R) (g : goal R) (x : R) : Prop :=
  match g with
  | PointGoal n t => exists p, node_coordinates form n = Ok p /\ x = dist p t
  | LineGoal n a b => exists p, node_coordinates form n = Ok p /\ distance_to (on_line a b) p x
  | PlaneGoal n o nrm => exists p, node_coordinates form n = Ok p /\ distance_to (on_plane o nrm) p x
  | PolylineGoal n l => exists p, node_coordinates form n = Ok p /\ distance_to (on_polyline l) p x
  | TrailForceGoal e f => exists y, edge_force form e = Ok y /\ x = Rabs (y - f)
  | ReactionGoal n r => exists p, reaction_force form n = Ok p /\ x = dist p r
  | LengthGoal e l => exists p q, node_coordinates form (fst e) = Ok p /\ node_coordinates form (snd e) = Ok q
      /\ x = Rabs (dist p q - l)
  | DirectionGoal e t => exists p q, node_coordinates form (fst e) = Ok p /\ node_coordinates form (snd e) = Ok q
      /\ x = Rmin (dist (direction (q -v p)) (direction t)) (dist (direction (q -v p)) (-1 *v direction t))
  end.

(** The form meets the goal: the node is where it should be, the edge has the force, the
    length or the direction it should have, the support has the reaction it should have. *)
Definition form_meets (form : diagram R) (g : goal R) : Prop :=
  match g with
  | PointGoal n t => node_coordinates form n = Ok t
  | LineGoal n a b => exists p, node_coordinates form n = Ok p /\ on_line a b p
  | PlaneGoal n o nrm => exists p, node_coordinates form n = Ok p /\ on_plane o nrm p
  | PolylineGoal n l => exists p, node_coordinates form n = Ok p /\ on_polyline l p
  | TrailForceGoal e f => edge_force form e = Ok f
  | ReactionGoal n r => reaction_force form n = Ok r
  | LengthGoal e l => exists p q, node_coordinates form (fst e) = Ok p /\ node_coordinates form (snd e) = Ok q /\ dist p q = l
  | DirectionGoal e t => exists p q, node_coordinates form (fst e) = Ok p /\ node_coordinates form (snd e) = Ok q
      /\ parallel (q -v p) t
  end.

(** The plane has a normal; the edge of the form and the target vector have a direction. *)
Definition form_directed (form : diagram R) (g : goal R) : Prop :=
  match g with
  | PlaneGoal _ _ nrm => nrm <> v0
  | DirectionGoal e t => t <> v0 /\ forall p q, node_coordinates form (fst e) = Ok p -> node_coordinates form (snd e) = Ok q -> p <> q
  | _ => True
  end.
