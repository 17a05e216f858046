(** * Vocabulary of the form finding properties

    Only public queries of a diagram are used here. *)

From Coq Require Import List ZArith Bool.
From Verif Require Import Py Num Diagram Topology SpecTopology History Equilibrium.
Import ListNotations.
Open Scope Z_scope.

Section Spec.
  Context {T : Type} `{NumOps T}.
  Implicit Types (d : diagram T).

  (** A diagram a user can hold: a topology built by any calls, or a form found from one. *)
  Definition produced d : Prop :=
    reachable d
    \/ exists t kmax tmax eta verbose, reachable t /\ static_equilibrium t kmax tmax eta verbose = Ok d.

  (** The stored trails without their keys. *)
  Definition stored d : list (list Z) := map snd (trails d).

  (** A topology ready for form finding: the stored trails are the disjoint chains
      that its trail edges form, they end in the supports, cover all nodes and carry
      consecutive sequences, and no reaction forces have been set by hand.
      build_trails produces such a topology from well-posed chains, and changing
      coordinates, loads, lengths, forces or shifting a trail to any non-negative
      sequence keeps it so. *)
  Record ready d : Prop := {
    rd_some : trails d <> [];
    rd_keys : forall key tr, In (key, tr) (trails d) -> starts_with tr key;
    rd_chains : chains d (stored d);
    rd_covers : covers d (stored d);
    rd_sequences : forall tr, In tr (stored d) -> exists s, 0 <= s
      /\ forall i n, nth_error tr i = Some n -> node_sequence d n = Ok (s + Z.of_nat i);
    rd_reactions : forall n, In n (nodes d) -> reaction_force d n = Ok vzero
  }.

  (** [m] comes after [n] on a stored trail. *)
  Definition follows d (n m : Z) : Prop := exists tr, In tr (stored d) /\ consecutive tr n m.

  (** Every deviation edge joins two nodes of the same sequence. *)
  Definition direct_only d : Prop :=
    forall u v, In (u, v) (deviation_edges d) -> node_sequence d u = node_sequence d v.

  (** The key under which the trail edge between two nodes is stored. *)
  Definition edge_between d (n m : Z) (e : ekey) : Prop :=
    In e (trail_edges d) /\ (e = (n, m) \/ e = (m, n)).

  (** A value of [kmax] that is not rejected. *)
  Definition kmax_ok (kmax : option Z) : Prop := match kmax with Some km => 0 <= km | None => True end.

  (** The containers after [t] iterations, whatever the displacements. *)
  Fixpoint after d (ts : dict Z (dict Z Z)) (kmax : option Z) (t : nat) : res (eqstate T) :=
    match t with
    | O => Ok (init_state d)
    | S t => let* st := after d ts kmax t in sweep d ts kmax (negb (Nat.eqb t 0)) st
    end.

  (** Iteration [t] (counted from 0) moves the nodes by [dist] in total. *)
  Definition moves d ts kmax (t : nat) (dist : T) : Prop :=
    exists a b, after d ts kmax t = Ok a /\ after d ts kmax (S t) = Ok b
      /\ residual_distance (s_xyz a) (s_xyz b) = Ok dist.

  (** The positions a form has are those of the containers after [t] iterations. *)
  Definition positions_after d ts kmax (t : nat) (form : diagram T) : Prop :=
    exists st, after d ts kmax t = Ok st
      /\ forall n, In n (nodes form) -> exists p, dget (s_xyz st) n = Some p /\ node_coordinates form n = Ok p.
  (** The calls that change no combinatorial data. *)
  Definition soft d (o : op T) : Prop :=
    match o with
    | OpAddLoad _ _ | OpSetCoords _ _ | OpSetLength _ _ | OpSetForce _ _
    | OpSetTol _ | OpSetAuxLength _ | OpSetAuxVector _ => True
    | OpNodeXyz k _ => In k (nodes d)
    | OpShiftTrail _ s => 0 <= s
    | _ => False
    end.

  (** Two diagrams that differ in the coordinates of their nodes at most. *)
  Record same_but_coordinates d d' : Prop := {
    sb_nodes : nodes d' = nodes d;
    sb_edges : edges d' = edges d;
    sb_trails : trails d' = trails d;
    sb_neighbors : forall n, neighbors d' n = neighbors d n;
    sb_support : forall n, is_node_support d' n = is_node_support d n;
    sb_load : forall n, node_load d' n = node_load d n;
    sb_reaction : forall n, reaction_force d' n = reaction_force d n;
    sb_sequence : forall n, node_sequence d' n = node_sequence d n;
    sb_edge : forall e, edge_get d' e = edge_get d e
  }.
End Spec.
