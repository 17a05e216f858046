(** * Vocabulary of the structure that a topology asks for, over the real numbers

    What a designer writes down before form finding, without any mention of how the
    form is found.  Only public queries of diagrams are used. *)

From Coq Require Import List ZArith Bool Reals.
From Verif Require Import Py Num Diagram Topology RVec SpecStatics SpecTopology SpecEquilibrium.
Import ListNotations.
Open Scope R_scope.

Section Spec.
  Implicit Types (d g : diagram R).

  (** Edge [e] has the given length and is in the state that the sign of the length
      asks for: compression if it is negative. *)
  Definition as_given g (e : ekey) (l : R) : Prop := span g e = Rabs l /\ (force g e < 0 <-> l < 0).

  (** The trail edge [e] from [n] to [m] cannot be fitted to the plane: it runs along
      it up to the tolerance, or starts on it. *)
  Definition unfit g (n m : Z) (o nrm : rvec) : Prop :=
    Rabs (dot nrm (direction (position g m -v position g n))) < / 1000000 \/ on_plane (position g n) o nrm.

  (** The trail edge [e] from [n] to [m] is as the topology [d] asks: it has the given
      length, or ends on the given plane. *)
  Definition as_asked d g (n m : Z) (e : ekey) : Prop :=
    forall l, edge_length_2 d e = Ok l ->
    match edge_plane d e with
    | Ok (Some (o, nrm)) => (unfit g n m o nrm -> as_given g e l) /\ (~ unfit g n m o nrm -> on_plane (position g m) o nrm)
    | _ => as_given g e l
    end.

  (** [g] is a structure as the topology [d] asks: the same nodes, edges and loads, the
      origins where the topology has them, the deviation edges with the given forces,
      the trail edges that carry a force as asked, held at the supports only, and in
      static equilibrium. *)
  Record structure d g : Prop := {
    st_nodes : nodes g = nodes d;
    st_edges : edges g = edges d;
    st_loads : forall n, In n (nodes d) -> load g n = load d n;
    st_origins : forall key tr, In (key, tr) (trails d) -> position g key = position d key;
    st_deviations : forall e, In e (deviation_edges d) -> force g e = force d e;
    st_held : forall n, In n (nodes d) -> is_node_support d n = Ok false -> reaction g n = v0;
    st_trails : forall n m e, follows d n m -> edge_between d n m e -> force g e <> 0 -> as_asked d g n m e;
    st_balanced : balanced g
  }.

  (** Every trail edge carries a force. *)
  Definition carrying d g : Prop := forall e, In e (trail_edges d) -> force g e <> 0.

  (** The same geometry, forces and reactions. *)
  Definition same_structure d g g' : Prop :=
    (forall n, In n (nodes d) -> position g n = position g' n /\ reaction g n = reaction g' n)
    /\ forall e, In e (edges d) -> force g e = force g' e.
End Spec.
