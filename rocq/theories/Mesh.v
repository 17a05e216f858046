(** * Topology diagrams from quad meshes

    Model of compas_cem/diagrams/topology/mesh_mixins.py.  The mesh itself and
    mesh.collect_polyedges() belong to another library: a mesh is here the list of
    its vertices with coordinates and the list of its polyedges, in the order in
    which the library yields them. *)

From Coq Require Import String List ZArith Bool.
From Verif Require Import Py Num Diagram Topology Constraints.
Import ListNotations.
Open Scope Z_scope.

Record quadmesh (T : Type) : Type := mkMesh {
  qm_vertices : list (Z * vec T);     (* vertices(), vertex_coordinates(v) *)
  qm_polyedges : list (list Z)        (* polyedges(data=True) *)
}.
Arguments mkMesh {T} _ _.
Arguments qm_vertices {T} _.
Arguments qm_polyedges {T} _.

(** [set(supports)]: the distinct elements *)
Fixpoint py_set (l : list Z) : list Z :=
  match l with
  | [] => []
  | a :: l => if memb a l then py_set l else a :: py_set l
  end.

(** The body of the loop over the polyedges (mesh_mixins.py:60-91): the trail and the
    deviation edges that one polyedge contributes.  [int(len(polyedge) / 2) - 1] is
    nonnegative here because an open polyedge has two vertices or more. *)
Definition split_edges (supports polyedge : list Z) : res (list ekey * list ekey) :=
  match polyedge with
  | [] => Err IndexError
  | start :: _ =>
      let e := last polyedge start in
      if Z.eqb start e then Ok ([], pairwise polyedge)
      else if negb (memb start supports) && negb (memb e supports) then Ok ([], pairwise polyedge)
      else if memb start supports && memb e supports then
        if memb (nth 1 polyedge start) supports then Ok ([], [])
        else
          let n := (Nat.div (List.length polyedge) 2 - 1)%nat in
          let* middle := match firstn 2 (skipn n polyedge) with
                         | [u; v] => Ok (u, v)
                         | _ => Err TypeError      (* DeviationEdge needs u and v *)
                         end in
          Ok (pairwise (firstn (n + 1) polyedge) ++ pairwise (skipn (n + 1) polyedge), [middle])
      else Ok (pairwise polyedge, [])
  end.

Section Mesh.
  Context {T : Type} `{NumOps T}.

  (** All trail edges and all deviation edges (mesh_mixins.py:57-91) *)
  Definition all_edges (supports : list Z) (polyedges : list (list Z)) : res (list ekey * list ekey) :=
    fold_res (fun acc p =>
      let* (tr, dv) := split_edges supports p in
      Ok (fst acc ++ tr, snd acc ++ dv)) polyedges ([], []).

  (** The length given to a trail edge (mesh_mixins.py:107-112) *)
  Definition signed_length (trail_length : option T) (trail_state : T) (e : ekey) (d : diagram T) : res T :=
    match trail_length with
    | Some l => if ntruthy l then Ok (nmul l trail_state)
                else
                  let* a := node_coordinates d (fst e) in
                  let* b := node_coordinates d (snd e) in
                  Ok (nmul (distance_point_point a b) trail_state)
    | None =>
        let* a := node_coordinates d (fst e) in
        let* b := node_coordinates d (snd e) in
        Ok (nmul (distance_point_point a b) trail_state)
    end.

  (** from_dualquadmesh (mesh_mixins.py:53-116); [ord] is the iteration order of
      the set of supports *)
  Definition from_dualquadmesh (ord : list Z -> list Z) (m : quadmesh T) (supports : list Z)
      (trail_length : option T) (trail_state deviation_force deviation_state : T) : res (diagram T) :=
    let supports := py_set supports in
    let* (trail, deviation) := all_edges supports (qm_polyedges m) in
    let build : eff (diagram T) unit :=
      do* _ := eloop (fun _ vp => add_node (Some (fst vp)) (snd vp)) (qm_vertices m) 0 in
      do* _ := eloop (fun _ s => add_support (RKey s)) (ord supports) tt in
      do* _ := eloop (fun _ (e : ekey) =>
                 add_edge (RKey (fst e)) (RKey (snd e)) (DeviationEdge (nmul deviation_state deviation_force)))
               deviation (0, 0) in
      do* _ := eloop (fun _ (e : ekey) =>
                 do* l := eget (signed_length trail_length trail_state e) in
                 add_edge (RKey (fst e)) (RKey (snd e)) (TrailEdge l None))
               trail (0, 0) in
      eret tt in
    match build empty_diagram with
    | (d, Ok _) => Ok d
    | (_, Err e) => Err e
    end.
End Mesh.
