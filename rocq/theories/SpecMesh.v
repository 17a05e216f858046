(** * What from_dualquadmesh should do with a polyedge *)

From Coq Require Import List ZArith Bool Permutation.
From Verif Require Import Py Num Diagram Topology Mesh.
Import ListNotations.
Open Scope Z_scope.

(** The edges along a list of vertices *)
Definition path_edges (l : list Z) : list ekey := combine l (tl l).

(** [tr] and [dv] are the trail edges and the deviation edges of the polyedge [p]
    when the vertices [s] are supports. *)
Inductive splits (s : list Z) : list Z -> list ekey -> list ekey -> Prop :=
| split_closed a p :                 (* a loop *)
    last p a = a -> splits s (a :: p) [] (path_edges (a :: p))
| split_free a p b :                 (* no end supported *)
    last p a = b -> a <> b -> ~ In a s -> ~ In b s -> splits s (a :: p) [] (path_edges (a :: p))
| split_one a p b :                  (* one end supported *)
    last p a = b -> a <> b -> In a s /\ ~ In b s \/ ~ In a s /\ In b s ->
    splits s (a :: p) (path_edges (a :: p)) []
| split_both a x p b l u v r :       (* both ends supported: the middle edge joins two trails *)
    last (x :: p) a = b -> a <> b -> In a s -> In b s -> ~ In x s ->
    a :: x :: p = l ++ u :: v :: r ->
    (List.length r = List.length l \/ List.length r = S (List.length l)) ->
    splits s (a :: x :: p) (path_edges (l ++ [u]) ++ path_edges (v :: r)) [(u, v)]
| split_along a x p b :              (* a polyedge that starts along the supports is left out *)
    last (x :: p) a = b -> a <> b -> In a s -> In b s -> In x s ->
    splits s (a :: x :: p) [] [].

Section SpecMesh.
  Context {T : Type} `{NumOps T}.

  (** The trail and the deviation edges of the whole mesh *)
  Definition mesh_trail (m : quadmesh T) (s : list Z) (e : ekey) : Prop :=
    exists p tr dv, In p (qm_polyedges m) /\ splits s p tr dv /\ In e tr.
  Definition mesh_deviation (m : quadmesh T) (s : list Z) (e : ekey) : Prop :=
    exists p tr dv, In p (qm_polyedges m) /\ splits s p tr dv /\ In e dv.

  (** The length of a trail edge: the given one if it is not zero, and else the distance between the vertices in the mesh,
      with the sign of the state. *)
  Definition mesh_length (trail_length : option T) (trail_state : T) (a b : vec T) (l : T) : Prop :=
    match trail_length with
    | Some g => (ntruthy g = true /\ l = nmul g trail_state)
                \/ (ntruthy g = false /\ l = nmul (distance_point_point a b) trail_state)
    | None => l = nmul (distance_point_point a b) trail_state
    end.

  (** A mesh with unique vertices whose polyedges run through its vertices, and
      supports at its vertices *)
  Record sound_mesh (m : quadmesh T) (s : list Z) : Prop := {
    sm_unique : NoDup (map fst (qm_vertices m));
    sm_paths : forall p, In p (qm_polyedges m) -> p <> [] /\ forall v, In v p -> In v (map fst (qm_vertices m));
    sm_supports : forall v, In v s -> In v (map fst (qm_vertices m))
  }.
End SpecMesh.
