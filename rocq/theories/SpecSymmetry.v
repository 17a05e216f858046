(** * Vocabulary of symmetric structures

    Only public queries of a diagram are used here. *)

From Coq Require Import List ZArith Bool Permutation.
From Verif Require Import Py Num Diagram Topology SpecTopology SpecEquilibrium SpecTransform.
Import ListNotations.
Open Scope Z_scope.

Section Spec.
  Context {T : Type} `{NumOps T}.
  Implicit Types (d : diagram T).

  (** The motion that takes every point [p] to [P p] and every direction [w] to [Q w] takes
      the structure to itself, node [n] to node [pi n]: the nodes, trails, loads, reactions,
      supports, sequences and edges with their kinds, lengths, forces and planes. *)
  Record symmetric (pi : Z -> Z) (P Q : vec T -> vec T) d : Prop := {
    sy_nodes : Permutation (nodes d) (map pi (nodes d));
    sy_trails : Permutation (stored d) (map (map pi) (stored d));
    sy_coordinates : forall n, In n (nodes d) -> node_coordinates d (pi n) = map_result P (node_coordinates d n);
    sy_load : forall n, In n (nodes d) -> node_load d (pi n) = map_result Q (node_load d n);
    sy_reaction : forall n, In n (nodes d) -> reaction_force d (pi n) = map_result Q (reaction_force d n);
    sy_support : forall n, In n (nodes d) -> is_node_support d (pi n) = is_node_support d n;
    sy_sequence : forall n, In n (nodes d) -> node_sequence d (pi n) = node_sequence d n;
    sy_edge : forall u v, In (u, v) (edges d) -> exists e, In e (edges d)
      /\ (e = (pi u, pi v) \/ e = (pi v, pi u))
      /\ is_trail_edge d e = is_trail_edge d (u, v)
      /\ is_deviation_edge d e = is_deviation_edge d (u, v)
      /\ edge_length_2 d e = edge_length_2 d (u, v)
      /\ edge_force d e = edge_force d (u, v)
      /\ edge_plane d e = map_result (option_map (fun ow => (P (fst ow), Q (snd ow)))) (edge_plane d (u, v))
  }.
End Spec.
