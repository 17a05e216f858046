(** * Moving, scaling and reloading a diagram, over the real numbers *)

From Coq Require Import List ZArith Bool Reals.
From Verif Require Import Py Num Diagram Topology RVec SpecStatics.
Import ListNotations.
Open Scope R_scope.

(** Rotations, reflections and their products: the linear maps that keep lengths
    and angles. *)
Record isometry (Q : rvec -> rvec) : Prop := {
  iso_add : forall u w, Q (u +v w) = Q u +v Q w;
  iso_scale : forall s u, Q (s *v u) = s *v Q u;
  iso_dot : forall u w, dot (Q u) (Q w) = dot u w
}.

(** Apply a function to the values of a dictionary. *)
Definition map_values {K V W} (g : V -> W) (m : dict K V) : dict K W :=
  map (fun kv => (fst kv, g (snd kv))) m.

(** The same outcome with another value. *)
Definition map_result {A B} (g : A -> B) (r : res A) : res B :=
  match r with Ok a => Ok (g a) | Err e => Err e end.

Section Transform.
  (** Geometry is turned by [Q], scaled by [s] and translated by [v]; forces are
      turned by [Q] and scaled by [c]. *)
  Context (s c : R) (Q : rvec -> rvec) (v : rvec).

  Definition moved_point (p : rvec) : rvec := s *v Q p +v v.
  Definition moved_force (q : rvec) : rvec := c *v Q q.

  Definition moved_node (a : node_attr R) : node_attr R :=
    mkNode (moved_point (na_xyz a)) (moved_force (na_load a)) (moved_force (na_reac a)) (na_k a) (na_type a).

  Definition moved_edge (a : edge_attr R) : edge_attr R :=
    mkEdge (ea_type a) (s * ea_length a) (c * ea_force a)
      (match ea_plane a with
       | Some (o, nrm) => Some (moved_point o, Q nrm)
       | None => None
       end).

  (** All coordinates, planes and lengths, and all loads and forces, are changed;
      nodes, edges, trails, sequences and types are kept. *)
  Definition moved (d : diagram R) : diagram R :=
    mkDiagram (map_values moved_node (d_node d)) (map_values (map_values moved_edge) (d_edge d))
      (d_adj d) (d_max d) (d_gkey d) (d_tol d) (d_trails d) (d_aux d) (d_aux_length d) (d_aux_vector d).
End Transform.

(** The special cases. *)
Definition translated (v : rvec) : diagram R -> diagram R := moved 1 1 (fun u => u) v.
Definition rotated (Q : rvec -> rvec) : diagram R -> diagram R := moved 1 1 Q v0.
Definition enlarged (s : R) : diagram R -> diagram R := moved s 1 (fun u => u) v0.
Definition reloaded (c : R) : diagram R -> diagram R := moved 1 c (fun u => u) v0.

(** [d'] is [d] with every point [p] replaced by [P p], every load, reaction and
    force vector [q] by [G q], every plane normal [w] by [N w], every length [l] by
    [s l] and every force [f] by [c f], as seen by the public queries. *)
Record image (P G N : rvec -> rvec) (s c : R) (d d' : diagram R) : Prop := {
  im_nodes : nodes d' = nodes d;
  im_edges : edges d' = edges d;
  im_trails : trails d' = trails d;
  im_coordinates : forall n, node_coordinates d' n = map_result P (node_coordinates d n);
  im_load : forall n, node_load d' n = map_result G (node_load d n);
  im_reaction : forall n, reaction_force d' n = map_result G (reaction_force d n);
  im_length : forall e, edge_length_2 d' e = map_result (Rmult s) (edge_length_2 d e);
  im_force : forall e, edge_force d' e = map_result (Rmult c) (edge_force d e);
  im_plane : forall e, edge_plane d' e
    = map_result (option_map (fun op => (P (fst op), N (snd op)))) (edge_plane d e);
  im_support : forall n, is_node_support d' n = is_node_support d n;
  im_sequence : forall n, node_sequence d' n = node_sequence d n;
  im_trail_edge : forall e, is_trail_edge d' e = is_trail_edge d e;
  im_deviation_edge : forall e, is_deviation_edge d' e = is_deviation_edge d e
}.

(** The structure lies in the plane z = 0. *)
Record flat (d : diagram R) : Prop := {
  flat_coordinates : forall n p, node_coordinates d n = Ok p -> vz p = 0;
  flat_load : forall n q, node_load d n = Ok q -> vz q = 0;
  flat_reaction : forall n q, reaction_force d n = Ok q -> vz q = 0;
  flat_plane : forall e o nrm, edge_plane d e = Ok (Some (o, nrm)) -> vz o = 0 /\ vz nrm = 0
}.
