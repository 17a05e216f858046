(** * Constraints and their penalties

    Model of compas_cem/optimization/constraints/*.py and of
    Optimizer._calculate_penalty.  TrimeshConstraint (constraints/mesh.py) is not
    modelled: it calls an external mesh library (and its import fails).
    A penalty reads the containers returned by equilibrium_state_numpy. *)

From Coq Require Import List ZArith Bool String.
From Verif Require Import Py Num Diagram Equilibrium.
Import ListNotations.
Open Scope Z_scope.

(** The constraint classes with their key and target. *)
Inductive goal (T : Type) : Type :=
| PointGoal (node : Z) (point : vec T)                    (* constraints/point.py:7-18 *)
| LineGoal (node : Z) (a b : vec T)                       (* constraints/line.py:9-25 *)
| PlaneGoal (node : Z) (origin normal : vec T)            (* constraints/plane.py:9-25 *)
| PolylineGoal (node : Z) (points : list (vec T))         (* constraints/polyline.py:12-49 *)
| TrailForceGoal (edge : ekey) (force : T)                (* constraints/force.py:9-19 *)
| ReactionGoal (node : Z) (vector : vec T)                (* constraints/force.py:22-32 *)
| LengthGoal (edge : ekey) (length : T)                   (* constraints/length.py:9-30 *)
| DirectionGoal (edge : ekey) (vector : vec T).           (* constraints/direction.py:13-60 *)
Arguments PointGoal {T} _ _.
Arguments LineGoal {T} _ _ _.
Arguments PlaneGoal {T} _ _ _.
Arguments PolylineGoal {T} _ _.
Arguments TrailForceGoal {T} _ _.
Arguments ReactionGoal {T} _ _.
Arguments LengthGoal {T} _ _.
Arguments DirectionGoal {T} _ _.

(** A constraint: a goal and a weight (constraints/constraint.py:20-24) *)
Record constraint (T : Type) : Type := mkConstraint { c_goal : goal T; c_weight : T }.
Arguments mkConstraint {T} _ _.
Arguments c_goal {T} _.
Arguments c_weight {T} _.

Section Constraints.
  Context {T : Type} `{NumOps T}.

  (** ** Closest points (compas.geometry) *)

  (** compas.geometry.vector_component *)
  Definition vector_component (u v : vec T) : vec T :=
    let l2 := length_vector_sqrd v in
    if ntruthy l2 then scale_vector v (ndiv (dot_vectors u v) l2) else vzero.

  (** compas.geometry.closest_point_on_line *)
  Definition closest_point_on_line (p a b : vec T) : vec T :=
    add_vectors a (vector_component (subtract_vectors p a) (subtract_vectors b a)).

  (** compas.geometry.closest_point_on_plane.  A plane without normal raises
      ZeroDivisionError in Python; here the division is the one of the scalar type. *)
  Definition closest_point_on_plane (p o normal : vec T) : vec T :=
    let n := normalize_vector normal in
    let d := dot_vectors n o in
    let k := ndiv (nsub (dot_vectors n p) d) (length_vector_sqrd n) in
    V3 (nsub (vx p) (nmul k (vx n))) (nsub (vy p) (nmul k (vy n))) (nsub (vz p) (nmul k (vz n))).

  (** compas.geometry.closest_point_on_segment *)
  Definition closest_point_on_segment (p a b : vec T) : vec T :=
    let q := closest_point_on_line p a b in
    let d := distance_point_point_sqrd a b in
    let d1 := distance_point_point_sqrd a q in
    let d2 := distance_point_point_sqrd b q in
    if nltb d d1 || nltb d d2 then (if nltb d1 d2 then a else b) else q.

  (** compas.utilities.pairwise *)
  Fixpoint pairwise {A} (l : list A) : list (A * A) :=
    match l with
    | a :: (b :: _) as l' => (a, b) :: pairwise l'
    | _ => []
    end.

  (** The point of [cloud] nearest to [p], the first one of several
      (closest_points_in_cloud_numpy with distances=False); [q] is the best so far. *)
  Fixpoint nearest_from (p q : vec T) (cloud : list (vec T)) : vec T :=
    match cloud with
    | [] => q
    | r :: cloud => nearest_from p (if nltb (distance_point_point p r) (distance_point_point p q) then r else q) cloud
    end.

  (** PolylineConstraint._closest_point_on_polyline (constraints/polyline.py:33-49);
      a polyline of fewer than two points has no segment and numpy raises. *)
  Definition closest_point_on_polyline (p : vec T) (points : list (vec T)) : res (vec T) :=
    match map (fun s => closest_point_on_segment p (fst s) (snd s)) (pairwise points) with
    | [] => Err (ValueError "empty cloud")
    | q :: cloud => Ok (nearest_from p q cloud)
    end.

  (** ** Directions (constraints/direction.py) *)

  (** _unitized_vector (direction.py:47-51).  A zero vector raises
      ZeroDivisionError or yields NaN; here the division is the one of the scalar type. *)
  Definition unitized_vector (v : vec T) : vec T :=
    scale_vector v (ndiv n1 (nsqrt (length_vector_sqrd v))).

  (** _aligned_vector (direction.py:54-60) *)
  Definition aligned_vector (v ref : vec T) : vec T :=
    if nltb (dot_vectors v ref) n0 then scale_vector v (nopp n1) else v.

  (** ** Penalties *)

  (** VectorConstraint.penalty (constraints/constraint.py:123-135) *)
  Definition vector_penalty (ref target : vec T) (w : T) : T :=
    nmul (distance_point_point_sqrd ref target) w.

  (** FloatConstraint.penalty (constraints/constraint.py:152-165) *)
  Definition float_penalty (ref target w : T) : T :=
    let diff := nsub ref target in nmul (nmul diff diff) w.

  (** penalty(data) of each class *)
  Definition penalty (st : eqstate T) (c : constraint T) : res T :=
    let w := c_weight c in
    match c_goal c with
    | PointGoal n t =>
        let* p := dgetr (s_xyz st) n in Ok (vector_penalty p t w)
    | LineGoal n a b =>
        let* p := dgetr (s_xyz st) n in Ok (vector_penalty p (closest_point_on_line p a b) w)
    | PlaneGoal n o nrm =>
        let* p := dgetr (s_xyz st) n in Ok (vector_penalty p (closest_point_on_plane p o nrm) w)
    | PolylineGoal n pts =>
        let* p := dgetr (s_xyz st) n in
        let* q := closest_point_on_polyline p pts in Ok (vector_penalty p q w)
    | TrailForceGoal e f =>
        let* x := dgetr (s_tforce st) e in Ok (float_penalty x f w)
    | ReactionGoal n r =>
        let* p := dgetr (s_reac st) n in Ok (vector_penalty p r w)
    | LengthGoal e l =>
        let* a := dgetr (s_xyz st) (fst e) in
        let* b := dgetr (s_xyz st) (snd e) in
        Ok (float_penalty (distance_point_point a b) l w)
    | DirectionGoal e t =>
        let* v := dgetr (s_xyz st) (snd e) in
        let* u := dgetr (s_xyz st) (fst e) in
        let ref := unitized_vector (subtract_vectors v u) in
        Ok (vector_penalty ref (aligned_vector (normalize_vector t) ref) w)
    end.

  (** Optimizer._calculate_penalty (optimizer.py:339-346) *)
  Definition calculate_penalty (cs : list (constraint T)) (st : eqstate T) : res T :=
    fold_res (fun acc c => let* x := penalty st c in Ok (nadd acc x)) cs n0.
End Constraints.
