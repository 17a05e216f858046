(** * Vocabulary of the comparison of the two form finding programs *)

From Coq Require Import List ZArith Bool Reals.
From Verif Require Import Py Num Diagram Topology SpecTopology Equilibrium EquilibriumNp SpecEquilibrium RVec.
Import ListNotations.
Open Scope Z_scope.

(** The positions of the containers. *)
Definition at_position {T} (st : eqstate T) (n : Z) (p : vec T) : Prop := dget (s_xyz st) n = Some p.

(** The iteration from containers [a] to containers [b] divides by zero nowhere: no
    deviation edge it looks at has its two ends at the same place, and no trail
    force vanishes.  When an edge between different sequences is looked at, one of
    its ends may still be where the previous iteration has left it; this happens
    from the second iteration on only ([later]). *)
Record divides_safely (d : diagram R) (later : bool) (a b : eqstate R) : Prop := {
  ds_direct : forall u v p q, In (u, v) (deviation_edges d) -> node_sequence d u = node_sequence d v ->
    at_position b u p -> at_position b v q -> p <> q;
  ds_indirect : forall u v p q, later = true -> In (u, v) (deviation_edges d) \/ In (v, u) (deviation_edges d) ->
    node_sequence d u <> node_sequence d v ->
    at_position b u p -> at_position a v q \/ at_position b v q -> p <> q;
  ds_force : forall e f, dget (s_tforce b) e = Some f -> f <> 0%R
}.

(** All iterations up to the [n]-th divide by zero nowhere. *)
Definition runs_safely (d : diagram R) (ts : dict Z (dict Z Z)) (n : nat) : Prop :=
  forall t a b, (t < n)%nat -> after d ts None t = Ok a -> after d ts None (S t) = Ok b ->
    divides_safely d (negb (Nat.eqb t 0)) a b.

(** The same, of a form of [d]: the ends of its deviation edges differ and its trail
    edges carry forces. *)
Definition form_is_sound (d form : diagram R) : Prop :=
  (forall u v p q, In (u, v) (deviation_edges d) ->
     node_coordinates form u = Ok p -> node_coordinates form v = Ok q -> p <> q)
  /\ (forall e f, In e (trail_edges d) -> edge_force form e = Ok f -> f <> 0%R).

(** The form shows the positions, the trail forces and the reactions of containers. *)
Definition shows (d : diagram R) (st : eqstate R) (form : diagram R) : Prop :=
  (forall n, In n (nodes d) -> exists p, at_position st n p /\ node_coordinates form n = Ok p)
  /\ (forall e f, dget (s_tforce st) e = Some f -> edge_force form e = Ok f)
  /\ (forall n r, dget (s_reac st) n = Some r -> reaction_force form n = Ok r).
