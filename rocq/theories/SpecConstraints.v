(** * Vocabulary of constraints, over the real numbers *)

From Coq Require Import List ZArith Bool Reals.
From Verif Require Import Py Num Diagram Equilibrium Constraints RVec SpecStatics.
Import ListNotations.
Open Scope R_scope.

(** Sets of points *)
Definition on_line (a b q : rvec) : Prop := exists t, q = a +v t *v (b -v a).
Definition on_plane (o n q : rvec) : Prop := dot n (q -v o) = 0.
Definition on_segment (a b q : rvec) : Prop := exists t, 0 <= t <= 1 /\ q = a +v t *v (b -v a).
Definition on_polyline (l : list rvec) (q : rvec) : Prop :=
  exists l1 a b l2, l = l1 ++ a :: b :: l2 /\ on_segment a b q.

(** [x] is the distance from [p] to the nearest point of the set [S]. *)
Definition distance_to (S : rvec -> Prop) (p : rvec) (x : R) : Prop :=
  (exists q, S q /\ dist p q = x) /\ forall q, S q -> x <= dist p q.

(** Two vectors are parallel, in either sense. *)
Definition parallel (u w : rvec) : Prop := exists s, u = s *v w.

Definition rsum (l : list R) : R := fold_right Rplus 0 l.

Section Spec.
  Implicit Types (st : eqstate R) (c : constraint R).

  Definition node_at st (n : Z) (p : rvec) : Prop := dget (s_xyz st) n = Some p.

  (** How far the containers are from meeting a goal *)
  Definition deviates st (g : goal R) (x : R) : Prop :=
    match g with
    | PointGoal n t => exists p, node_at st n p /\ x = dist p t
    | LineGoal n a b => exists p, node_at st n p /\ distance_to (on_line a b) p x
    | PlaneGoal n o nrm => exists p, node_at st n p /\ distance_to (on_plane o nrm) p x
    | PolylineGoal n l => exists p, node_at st n p /\ distance_to (on_polyline l) p x
    | TrailForceGoal e f => exists y, dget (s_tforce st) e = Some y /\ x = Rabs (y - f)
    | ReactionGoal n r => exists p, dget (s_reac st) n = Some p /\ x = dist p r
    | LengthGoal e l => exists p q, node_at st (fst e) p /\ node_at st (snd e) q /\ x = Rabs (dist p q - l)
    | DirectionGoal e t => exists p q, node_at st (fst e) p /\ node_at st (snd e) q
        /\ x = Rmin (dist (direction (q -v p)) (direction t)) (dist (direction (q -v p)) (-1 *v direction t))
    end.

  (** The goal is met. *)
  Definition meets st (g : goal R) : Prop :=
    match g with
    | PointGoal n t => node_at st n t
    | LineGoal n a b => exists p, node_at st n p /\ on_line a b p
    | PlaneGoal n o nrm => exists p, node_at st n p /\ on_plane o nrm p
    | PolylineGoal n l => exists p, node_at st n p /\ on_polyline l p
    | TrailForceGoal e f => dget (s_tforce st) e = Some f
    | ReactionGoal n r => dget (s_reac st) n = Some r
    | LengthGoal e l => exists p q, node_at st (fst e) p /\ node_at st (snd e) q /\ dist p q = l
    | DirectionGoal e t => exists p q, node_at st (fst e) p /\ node_at st (snd e) q /\ parallel (q -v p) t
    end.

  (** The plane has a normal; the edge and the target vector have a direction. *)
  Definition has_direction st (g : goal R) : Prop :=
    match g with
    | PlaneGoal _ _ nrm => nrm <> v0
    | DirectionGoal e t => t <> v0 /\ forall p q, node_at st (fst e) p -> node_at st (snd e) q -> p <> q
    | _ => True
    end.
End Spec.
