(** * Vocabulary of the topology properties

    Only public queries of a diagram are used here: nodes, edges, trail_edges,
    support_nodes, neighbors, node_sequence, node_coordinates, ... *)

From Coq Require Import List ZArith Bool Permutation.
From Verif Require Import Py Num Diagram Topology.
Import ListNotations.
Open Scope Z_scope.

(** [ord] lists a set: the iteration order of a Python set is some order of its elements. *)
Definition same_set_order (ord : list Z -> list Z) : Prop := forall l, Permutation (ord l) l.

(** [n] things have the property. *)
Definition counts {A} (P : A -> Prop) (n : Z) : Prop :=
  exists l, NoDup l /\ (forall x, In x l <-> P x) /\ n = Z.of_nat (List.length l).

Section Spec.
  Context {T : Type} `{NumOps T}.
  Implicit Types (d : diagram T).

  (** A trail edge joins [a] and [b], stored in either direction. *)
  Definition trail_joined d (a b : Z) : Prop :=
    In (a, b) (trail_edges d) \/ In (b, a) (trail_edges d).

  (** [n] can be reached from [s] along trail edges. *)
  Inductive trail_connected d : Z -> Z -> Prop :=
  | tc_refl : forall s, trail_connected d s s
  | tc_step : forall s m n, trail_connected d s m -> trail_joined d m n -> trail_connected d s n.

  (** At most one edge joins two nodes, and no edge joins a node to itself. *)
  Definition simple_graph d : Prop :=
    forall u v, In (u, v) (edges d) -> ~ In (v, u) (edges d).

  (** [a] and [b] follow each other in the list [p]. *)
  Definition consecutive (p : list Z) (a b : Z) : Prop :=
    exists l r, p = l ++ a :: b :: r.

  (** [n] is the last element of [p]. *)
  Definition ends_in (p : list Z) (n : Z) : Prop := exists l, p = l ++ [n].

  (** [n] is the first element of [p]. *)
  Definition starts_with (p : list Z) (n : Z) : Prop := exists r, p = n :: r.

  (** The trail edges of [d] form the disjoint open chains [P], each with at least
      two nodes and with exactly one support, which is its last node; the diagram
      has no other supports.  The chains need not cover all the nodes. *)
  Record chains d (P : list (list Z)) : Prop := {
    ch_simple : simple_graph d;
    ch_length : forall p, In p P -> (2 <= List.length p)%nat;
    ch_disjoint : NoDup (concat P);
    ch_nodes : forall n, In n (concat P) -> In n (nodes d);
    ch_edges : forall a b, trail_joined d a b <->
                 exists p, In p P /\ (consecutive p a b \/ consecutive p b a);
    ch_supports : forall n, In n (support_nodes d) <-> exists p, In p P /\ ends_in p n
  }.

  (** Every node lies on a chain. *)
  Definition covers d (P : list (list Z)) : Prop :=
    forall n, In n (nodes d) -> In n (concat P).

  (** What distinguishes two diagrams for a user who ignores node types and
      sequences: nothing. *)
  Definition same_but_types_and_sequences d d' : Prop :=
    nodes d' = nodes d /\ edges d' = edges d
    /\ (forall n, node_coordinates d' n = node_coordinates d n)
    /\ (forall n, node_load d' n = node_load d n)
    /\ (forall n, reaction_force d' n = reaction_force d n)
    /\ (forall n, neighbors d' n = neighbors d n)
    /\ (forall e, edge_get d' e = edge_get d e)
    /\ (forall r, node_key d' r = node_key d r).
  (** Every node has a sequence number. *)
  Definition sequenced d : Prop := forall n, In n (nodes d) -> exists k, node_sequence d n = Ok k.

  (** The entry [ts[key][k]] of the dictionary returned by trails_sequences(). *)
  Definition lookup_ts (ts : dict Z (dict Z Z)) (key k : Z) : option Z :=
    match dget ts key with Some m => dget m k | None => None end.
End Spec.
