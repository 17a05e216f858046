(** * Vocabulary of the diagram properties

    Only public queries of a diagram are used here. *)

From Coq Require Import List ZArith Bool.
From Verif Require Import Py Num Diagram Topology History.
Import ListNotations.
Open Scope Z_scope.

Section Spec.
  Context {T : Type} `{NumOps T}.
  Implicit Types (d : diagram T).

  (** A well-formed graph with a sound lookup table, key counter and trails. *)
  Record well_formed d : Prop := {
    (* node keys are unique *)
    ok_nodes : NoDup (nodes d);
    (* edge keys are unique, and edges join existing nodes *)
    ok_edges : NoDup (edges d);
    ok_ends : forall u v, In (u, v) (edges d) -> In u (nodes d) /\ In v (nodes d);
    (* the neighbours are the nodes joined by an edge in either direction, once each *)
    ok_neighbors : forall n, In n (nodes d) ->
      exists l, neighbors d n = Ok l /\ NoDup l
        /\ forall m, In m l <-> In (n, m) (edges d) \/ In (m, n) (edges d);
    (* every entry of the table gkey_node names an existing node *)
    ok_lookup : forall g k, In (g, k) (d_gkey d) -> In k (nodes d);
    (* the automatic key counter is at least every key *)
    ok_counter : forall n, In n (nodes d) -> n <= d_max d;
    (* stored trails consist of existing nodes *)
    ok_trails : forall key tr n, In (key, tr) (trails d) -> In n tr -> In n (nodes d)
  }.

  (** All attributes of node [n] are the same in both diagrams. *)
  Definition same_node d d' (n : Z) : Prop := node_get d' n = node_get d n.

  (** The same edges, in the same order, with the same attributes and neighbours. *)
  Definition same_edges d d' : Prop :=
    edges d' = edges d /\ (forall e, edge_get d' e = edge_get d e)
    /\ forall n, In n (nodes d) -> neighbors d' n = neighbors d n.

  (** The same trails, tolerance and auxiliary settings. *)
  Definition same_settings d d' : Prop :=
    trails d' = trails d /\ auxiliary_trails d' = auxiliary_trails d /\ d_tol d' = d_tol d
    /\ d_aux_length d' = d_aux_length d /\ d_aux_vector d' = d_aux_vector d.

  (** The attributes of a node that was just created at [p]. *)
  Definition fresh_node (p : vec T) : node_attr T := mkNode p vzero vzero None None.

  (** A list of distinct keys with the elements of [l]. *)
  Definition distinct {A} (eqA : forall x y : A, {x = y} + {x <> y}) (l : list A) : list A := nodup eqA l.

  (** A line with the edge it stands for. *)
  Definition line : Type := (vec T * vec T * edge_elem T)%type.
  Definition line_op (l : line) : op T :=
    OpAddEdge (RXyz (fst (fst l))) (RXyz (snd (fst l))) (snd l).
  Definition line_ends (l : line) : list (vec T) := [fst (fst l); snd (fst l)].

  (** The edge [e] is of the kind of the element, and has its length and plane, or its force. *)
  Definition carries d (e : ekey) (el : edge_elem T) : Prop :=
    match el with
    | TrailEdge l pl => is_trail_edge d e = Ok true /\ is_deviation_edge d e = Ok false
        /\ edge_length_2 d e = Ok l /\ edge_plane d e = Ok pl
    | DeviationEdge f => is_trail_edge d e = Ok false /\ is_deviation_edge d e = Ok true /\ edge_force d e = Ok f
    end.

  (** A diagram with tolerance [n] to which the lines are added one by one. *)
  Definition assemble (n : nat) (ls : list line) : diagram T :=
    run empty_diagram (OpSetTol n :: map line_op ls).

  (** The three coordinates of a point rounded to [n] decimals. *)
  Definition rounded (n : nat) (p : vec T) : gcoord * gcoord * gcoord :=
    (nround n (vx p), nround n (vy p), nround n (vz p)).

  (** Rounded locations can be compared. *)
  Lemma rounded_dec : forall x y : gcoord * gcoord * gcoord, {x = y} + {x <> y}.
  Proof. intros x y. destruct (eqb_spec x y); auto. Defined.
End Spec.
