(** * Vocabulary of what influences what

    Only public queries of a diagram are used here. *)

From Coq Require Import List ZArith Bool Permutation.
From Verif Require Import Py Num Diagram Topology History SpecTopology SpecEquilibrium SpecStatics.
Import ListNotations.
Open Scope Z_scope.

Section Spec.
  Context {T : Type} `{NumOps T}.
  Implicit Types (d : diagram T).

  (** [e] is a deviation edge that ends in [n]. *)
  Definition deviation_at d (n : Z) (e : ekey) : Prop :=
    In e (deviation_edges d) /\ (fst e = n \/ snd e = n).

  (** The deviation edges of [n] lead to nodes of its own sequence. *)
  Definition direct_at d (n : Z) : Prop :=
    forall e, deviation_at d n e -> node_sequence d (fst e) = node_sequence d (snd e).

  (** [n] is the first node of a trail. *)
  Definition begins d (n : Z) : Prop := exists tr, In tr (stored d) /\ starts_with tr n.

  (** [n] and [n'] carry the same load and are held by deviation edges with the same forces
      to nodes that correspond. *)
  Record same_loading (M : Z -> Z -> Prop) d d' (n n' : Z) : Prop := {
    sl_load : node_load d' n' = node_load d n;
    sl_there : forall e, deviation_at d n e -> exists e', deviation_at d' n' e'
      /\ M (far_end e n) (far_end e' n') /\ edge_force d' e' = edge_force d e;
    sl_back : forall e', deviation_at d' n' e' -> exists e, deviation_at d n e
      /\ M (far_end e n) (far_end e' n') /\ edge_force d' e' = edge_force d e
  }.

  (** The trail edges between [n] and [m], and between [n'] and [m'], have the same length
      and plane. *)
  Definition same_segment d d' (n m n' m' : Z) : Prop :=
    forall e e', edge_between d n m e -> edge_between d' n' m' e' ->
      edge_length_2 d' e' = edge_length_2 d e /\ edge_plane d' e' = edge_plane d e.

  (** The nodes of a part of [d] correspond one to one to nodes of [d'], and what comes
      before them on their trails is the same: the origins, and on the way from there the
      loads, the deviation edges, which lead to nodes that correspond, and the trail edges. *)
  Record matched (M : Z -> Z -> Prop) d d' : Prop := {
    mt_fun : forall n a b, M n a -> M n b -> a = b;
    mt_inj : forall a b n, M a n -> M b n -> a = b;
    mt_nodes : forall n n', M n n' -> In n (nodes d) /\ In n' (nodes d');
    mt_begins : forall n n', M n n' -> begins d n ->
      begins d' n' /\ node_coordinates d' n' = node_coordinates d n;
    mt_before : forall n m m', M m m' -> follows d n m -> exists n', M n n' /\ follows d' n' m'
      /\ direct_at d n /\ direct_at d' n' /\ same_loading M d d' n n' /\ same_segment d d' n m n' m'
  }.

  (** [d'] is [d] with the nodes renamed by [pi], and perhaps other orders of nodes, edges and
      trails and other directions of edges. *)
  Record renamed (pi : Z -> Z) d d' : Prop := {
    rn_nodes : Permutation (nodes d') (map pi (nodes d));
    rn_trails : Permutation (stored d') (map (map pi) (stored d));
    rn_there : forall u v, In (u, v) (edges d) -> exists e', In e' (edges d')
      /\ (e' = (pi u, pi v) \/ e' = (pi v, pi u)) /\ edge_get d' e' = edge_get d (u, v);
    rn_back : forall e', In e' (edges d') -> exists u v, In (u, v) (edges d)
      /\ (e' = (pi u, pi v) \/ e' = (pi v, pi u)) /\ edge_get d' e' = edge_get d (u, v);
    rn_node : forall n, In n (nodes d) ->
      node_coordinates d' (pi n) = node_coordinates d n
      /\ node_load d' (pi n) = node_load d n
      /\ reaction_force d' (pi n) = reaction_force d n
      /\ is_node_support d' (pi n) = is_node_support d n
      /\ node_sequence d' (pi n) = node_sequence d n
  }.

  (** A set of nodes that contains with every node its predecessor on the trail, and the nodes
      that the deviation edges of this predecessor lead to. *)
  Definition upstream d (S : Z -> Prop) : Prop :=
    forall n m, follows d n m -> S m ->
      S n /\ direct_at d n /\ forall e, deviation_at d n e -> S (far_end e n).

  (** Two topologies with the same nodes, edges, trails, supports and sequences, and with the
      same data for the nodes in [S]: coordinates of the origins, and for every trail
      edge that leads to a node of [S], its length and plane, and the load and the deviation
      forces at its start. *)
  Record same_upstream (S : Z -> Prop) d d' : Prop := {
    su_nodes : nodes d' = nodes d;
    su_edges : edges d' = edges d;
    su_trails : trails d' = trails d;
    su_neighbors : forall n, neighbors d' n = neighbors d n;
    su_support : forall n, is_node_support d' n = is_node_support d n;
    su_sequence : forall n, node_sequence d' n = node_sequence d n;
    su_trail : forall e, is_trail_edge d' e = is_trail_edge d e;
    su_deviation : forall e, is_deviation_edge d' e = is_deviation_edge d e;
    su_origin : forall n, S n -> begins d n -> node_coordinates d' n = node_coordinates d n;
    su_load : forall n m, follows d n m -> S m -> node_load d' n = node_load d n;
    su_force : forall n m e, follows d n m -> S m -> deviation_at d n e -> edge_force d' e = edge_force d e;
    su_segment : forall n m e, follows d n m -> S m -> edge_between d n m e ->
      edge_length_2 d' e = edge_length_2 d e /\ edge_plane d' e = edge_plane d e
  }.

  (** The nodes up to sequence [k]. *)
  Definition up_to d (k n : Z) : Prop := exists j, node_sequence d n = Ok j /\ j <= k.

  (** A call that changes a load or a deviation force on sequence [k] or later, or the length
      of a trail edge that starts there. *)
  Definition late d (k : Z) (o : op T) : Prop :=
    match o with
    | OpAddLoad r _ => exists n j, node_key d r = Some n /\ node_sequence d n = Ok j /\ k <= j
    | OpSetForce e _ => In e (deviation_edges d) /\ exists j, node_sequence d (fst e) = Ok j /\ k <= j
    | OpSetLength e _ => In e (trail_edges d)
        /\ forall n j, fst e = n \/ snd e = n -> node_sequence d n = Ok j -> k <= j
    | _ => False
    end.
End Spec.
