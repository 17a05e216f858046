(** * Properties of diagram construction (C01 - C10, C60)

    Generated by tools/gen_props.py from the lemmas of DiagramThms.v, WeldFacts.v
    and Witness.v.  The vocabulary is in SpecDiagram.v and History.v. *)

From Coq Require Import String List ZArith Bool Permutation Reals Floats.
From Verif Require Import Py Num Diagram Topology History Fixtures SpecDiagram SpecTopology
  DiagramThms WeldFacts Witness.
Import ListNotations.
Open Scope Z_scope.

Section Generic.
  Context {T : Type} `{NumOps T}.
  Implicit Types (d : diagram T).

  (** Diagram integrity under every call history. *)
  Theorem C01_integrity : forall ops : list (op T),
    Forall valid_op ops -> well_formed (run empty_diagram ops).
  Proof. exact c01_integrity. Qed.
  (** An automatic key is fresh, and adding the node changes nothing else. *)
  Theorem C02_fresh_key : forall d p, reachable d ->
    exists d' k, add_node None p d = (d', Ok k)
      /\ ~ In k (nodes d)
      /\ nodes d' = nodes d ++ [k]
      /\ node_get d' k = Ok (fresh_node p)
      /\ (forall n, In n (nodes d) -> same_node d d' n)
      /\ same_edges d d' /\ same_settings d d'.
  Proof. exact c02_fresh_key. Qed.
  (** add_node with a key stores and indexes exactly that node. *)
  Theorem C03_add_node : forall d k p, reachable d ->
    exists d', add_node (Some k) p d = (d', Ok k)
      /\ node_coordinates d' k = Ok p
      /\ node_key d' (RXyz p) = Some k
      /\ (forall n, n <> k -> same_node d d' n)
      /\ same_edges d d' /\ same_settings d d'
      /\ (In k (nodes d) -> nodes d' = nodes d
            /\ node_load d' k = node_load d k /\ is_node_support d' k = is_node_support d k
            /\ reaction_force d' k = reaction_force d k /\ node_sequence d' k = node_sequence d k)
      /\ (~ In k (nodes d) -> nodes d' = nodes d ++ [k] /\ node_get d' k = Ok (fresh_node p)).
  Proof. exact c03_add_node. Qed.
  (** A coordinate lookup returns an existing node that, at some moment of the
      history, was at a point with the same rounded coordinates. *)
  Theorem C04_lookup : forall (ops : list (op T)) p k, Forall valid_op ops ->
    node_key (run empty_diagram ops) (RXyz p) = Some k ->
    In k (nodes (run empty_diagram ops))
    /\ exists ops1 ops2 p', ops = ops1 ++ ops2
         /\ node_coordinates (run empty_diagram ops1) k = Ok p'
         /\ rounded (d_tol (run empty_diagram ops)) p' = rounded (d_tol (run empty_diagram ops)) p.
  Proof. exact c04_lookup. Qed.
  (** add_edge: how the two ends are resolved, and what it leaves untouched. *)
  Theorem C05_add_edge_ends : forall d ru rv el, reachable d ->
    (forall k, ru = RKey k -> In k (nodes d)) -> (forall k, rv = RKey k -> In k (nodes d)) ->
    exists d' u v, add_edge ru rv el d = (d', Ok (u, v))
      /\ In (u, v) (edges d')
      /\ (forall k, node_key d ru = Some k -> u = k)
      /\ (forall k, node_key d rv = Some k -> v = k)
      /\ (forall p, ru = RXyz p -> node_key d ru = None ->
            ~ In u (nodes d) /\ node_get d' u = Ok (fresh_node p) /\ node_key d' ru = Some u)
      /\ (forall q, rv = RXyz q -> node_key d rv = None ->
            ~ In v (nodes d) /\ node_key d' rv = Some v
            /\ (v = u /\ (exists p, ru = RXyz p /\ rounded (d_tol d) p = rounded (d_tol d) q)
                \/ v <> u /\ node_get d' v = Ok (fresh_node q)))
      /\ (forall n, In n (nodes d) -> same_node d d' n)
      /\ (forall n, In n (nodes d') <-> In n (nodes d) \/ n = u \/ n = v)
      /\ same_settings d d'.
  Proof. exact c05_add_edge_ends. Qed.
  (** A diagram assembled from lines has exactly one node per distinct rounded end. *)
  Theorem C06_welding : forall (n : nat) (ls : list line),
    let d := assemble n ls in
    let pts := flat_map line_ends ls in
    (forall p, In p pts -> exists k, node_key d (RXyz p) = Some k /\ In k (nodes d))
    /\ (forall p q, In p pts -> In q pts ->
          (node_key d (RXyz p) = node_key d (RXyz q) <-> rounded n p = rounded n q))
    /\ List.length (nodes d) = List.length (distinct rounded_dec (map (rounded n) pts))
    /\ (forall k, In k (nodes d) -> exists p, In p pts /\ node_get d k = Ok (fresh_node p)
          /\ node_key d (RXyz p) = Some k)
    /\ (forall u v, In (u, v) (edges d) <-> exists a b el, In (a, b, el) ls
          /\ node_key d (RXyz a) = Some u /\ node_key d (RXyz b) = Some v).
  Proof. exact c06_welding. Qed.
  (** The edge of a line is of the kind of the last line given between the same rounded ends, in the same direction, and
      has its length and plane, or its force. *)
  Theorem C06_data : forall (n : nat) (pre post : list line) a b el,
    let d := assemble n (pre ++ (a, b, el) :: post) in
    (forall a' b' el', In (a', b', el') post -> ~ (rounded n a' = rounded n a /\ rounded n b' = rounded n b)) ->
    exists u v, node_key d (RXyz a) = Some u /\ node_key d (RXyz b) = Some v /\ In (u, v) (edges d) /\ carries d (u, v) el.
  Proof. exact c06_data. Qed.
  (** add_edge between existing keys writes exactly the given edge. *)
  Theorem C07_add_edge_writes : forall d u v el, reachable d ->
    In u (nodes d) -> In v (nodes d) ->
    exists d', add_edge (RKey u) (RKey v) el d = (d', Ok (u, v))
      /\ nodes d' = nodes d /\ (forall n, same_node d d' n) /\ same_settings d d'
      /\ (forall r, node_key d' r = node_key d r)
      /\ (forall e, In e (edges d') <-> e = (u, v) \/ In e (edges d))
      /\ (forall e, e <> (u, v) -> edge_get d' e = edge_get d e)
      /\ match el with
         | TrailEdge l pl =>
             is_trail_edge d' (u, v) = Ok true /\ is_deviation_edge d' (u, v) = Ok false
             /\ edge_length_2 d' (u, v) = Ok l /\ edge_plane d' (u, v) = Ok pl
             /\ (In (u, v) (edges d) -> edge_force d' (u, v) = edge_force d (u, v))
             /\ (~ In (u, v) (edges d) -> edge_force d' (u, v) = Ok n0)
         | DeviationEdge f =>
             is_trail_edge d' (u, v) = Ok false /\ is_deviation_edge d' (u, v) = Ok true
             /\ edge_force d' (u, v) = Ok f
             /\ (In (u, v) (edges d) -> edge_length_2 d' (u, v) = edge_length_2 d (u, v)
                                        /\ edge_plane d' (u, v) = edge_plane d (u, v))
             /\ (~ In (u, v) (edges d) -> edge_length_2 d' (u, v) = Ok n0 /\ edge_plane d' (u, v) = Ok None)
         end.
  Proof. exact c07_add_edge_writes. Qed.
  (** add_edge between integer keys that do not both exist raises and changes nothing. *)
  Theorem C08_add_edge_rejects : forall d u v el,
    ~ In u (nodes d) \/ ~ In v (nodes d) ->
    add_edge (RKey u) (RKey v) el d = (d, Err AttributeError).
  Proof. exact c08_add_edge_rejects. Qed.
  (** add_support marks exactly the addressed node, or raises and changes nothing. *)
  Theorem C09_add_support : forall d r, reachable d ->
    (exists n d', node_key d r = Some n /\ In n (nodes d)
       /\ add_support r d = (d', Ok tt) /\ nodes d' = nodes d
       /\ is_node_support d' n = Ok true
       /\ node_coordinates d' n = node_coordinates d n /\ node_load d' n = node_load d n
       /\ reaction_force d' n = reaction_force d n /\ node_sequence d' n = node_sequence d n
       /\ (forall m, m <> n -> same_node d d' m)
       /\ same_edges d d' /\ same_settings d d' /\ (forall r', node_key d' r' = node_key d r'))
    \/ (exists n, r = RKey n /\ ~ In n (nodes d) /\ add_support r d = (d, Err KeyError))
    \/ (exists p, r = RXyz p /\ node_key d r = None
          /\ add_support r d = (d, Err (ValueError "A node doesn't exist"))).
  Proof. exact c09_add_support. Qed.
  (** add_load sets exactly the load of the addressed node, or raises and changes nothing. *)
  Theorem C09_add_load : forall d r q, reachable d ->
    (exists n d', node_key d r = Some n /\ In n (nodes d)
       /\ add_load r q d = (d', Ok tt) /\ nodes d' = nodes d
       /\ node_load d' n = Ok q
       /\ node_coordinates d' n = node_coordinates d n /\ is_node_support d' n = is_node_support d n
       /\ reaction_force d' n = reaction_force d n /\ node_sequence d' n = node_sequence d n
       /\ (forall m, m <> n -> same_node d d' m)
       /\ same_edges d d' /\ same_settings d d' /\ (forall r', node_key d' r' = node_key d r'))
    \/ (exists n, r = RKey n /\ ~ In n (nodes d) /\ add_load r q d = (d, Err KeyError))
    \/ (exists p, r = RXyz p /\ node_key d r = None
          /\ add_load r q d = (d, Err (ValueError "A node doesn't exist"))).
  Proof. exact c09_add_load. Qed.
  (** node_xyz(key, p) moves the node and indexes its new location; the lookup at
      any other location is unchanged, including the node's previous location. *)
  Theorem C10_move_partial : forall d k p, reachable d -> In k (nodes d) ->
    exists d', update_node_xyz k p d = (d', Ok tt)
      /\ nodes d' = nodes d
      /\ node_coordinates d' k = Ok p
      /\ node_key d' (RXyz p) = Some k
      /\ (forall n, n <> k -> same_node d d' n)
      /\ node_load d' k = node_load d k /\ is_node_support d' k = is_node_support d k
      /\ same_edges d d' /\ same_settings d d'
      /\ (forall q, rounded (d_tol d) q <> rounded (d_tol d) p -> node_key d' (RXyz q) = node_key d (RXyz q)).
  Proof. exact c10_move_partial. Qed.
  (** An add_edge that raises met a key that is not a node; it leaves all nodes,
      edges and settings as they were, and at most one new node behind. *)
  Theorem C60_failing_add_edge_partial : forall d ru rv el d' e, reachable d ->
    add_edge ru rv el d = (d', Err e) ->
    e = AttributeError
    /\ (exists k, (ru = RKey k \/ rv = RKey k) /\ ~ In k (nodes d) /\ ~ In k (nodes d'))
    /\ same_edges d d' /\ same_settings d d'
    /\ (forall n, In n (nodes d) -> same_node d d' n)
    /\ (nodes d' = nodes d
        \/ exists k p, nodes d' = nodes d ++ [k] /\ (ru = RXyz p \/ rv = RXyz p)
             /\ node_get d' k = Ok (fresh_node p)).
  Proof. exact c60_failing_add_edge_partial. Qed.
End Generic.
Print Assumptions C01_integrity.
Print Assumptions C02_fresh_key.
Print Assumptions C03_add_node.
Print Assumptions C04_lookup.
Print Assumptions C05_add_edge_ends.
Print Assumptions C06_welding.
Print Assumptions C06_data.
Print Assumptions C07_add_edge_writes.
Print Assumptions C08_add_edge_rejects.
Print Assumptions C09_add_support.
Print Assumptions C09_add_load.
Print Assumptions C10_move_partial.
Print Assumptions C60_failing_add_edge_partial.

(** Over the reals: the looked-up node is or was within one unit of the last decimal. *)
Section OverR.
  Local Open Scope R_scope.
(** The number that is looked up for a coordinate is the nearest multiple of the last decimal, and the even one of two that are equally near. *)
Theorem C04_rounding : forall p (x : R), exists k, nround p x = GFin k
    /\ Rabs (IZR k - x * 10 ^ p) <= / 2 /\ (Rabs (IZR k - x * 10 ^ p) = / 2 -> Z.even k = true).
Proof. exact c04_rounding. Qed.
(** Over the reals: the node found was registered within one unit of the last
    rounded decimal of the queried point, in every coordinate. *)
Theorem C04_lookup_distance : forall (ops : list (op R)) p k, Forall valid_op ops ->
    node_key (run empty_diagram ops) (RXyz p) = Some k ->
    exists ops1 ops2 p', ops = (ops1 ++ ops2)%list
      /\ node_coordinates (run empty_diagram ops1) k = Ok p'
      /\ Rabs (vx p' - vx p) <= / pow 10 (d_tol (run empty_diagram ops))
      /\ Rabs (vy p' - vy p) <= / pow 10 (d_tol (run empty_diagram ops))
      /\ Rabs (vz p' - vz p) <= / pow 10 (d_tol (run empty_diagram ops)).
Proof. exact c04_lookup_distance. Qed.
End OverR.
Print Assumptions C04_rounding.
Print Assumptions C04_lookup_distance.

(** ** What does not hold *)

(** Moving a node leaves the entry of its former location in the lookup table. *)
Theorem C10_refuted : exists (d : diagram float) k p q d', reachable d /\ In k (nodes d)
  /\ node_coordinates d k = Ok q /\ update_node_xyz k p d = (d', Ok tt)
  /\ node_coordinates d' k = Ok p /\ rounded (d_tol d') p <> rounded (d_tol d') q
  /\ node_key d' (RXyz q) = Some k.
Proof. exact c10_refuted. Qed.
(** An edge from a new location to a key that does not exist: the call raises, and
  the node of the new location stays. *)
Theorem C60_refuted : exists (d d' : diagram float) u v el e, reachable d
  /\ add_edge u v el d = (d', Err e) /\ nodes d' <> nodes d.
Proof. exact c60_refuted. Qed.
Print Assumptions C10_refuted.
Print Assumptions C60_refuted.

(** ** The hypotheses can be met *)

(** C01: a history in which calls fail (key 99 and location (7,7,7) do not exist). *)
Definition history : list (op float) :=
  braced_tower_2d zf ++ [trail_e zf 0 99 1; OpAddSupport (RXyz (fv 7 7 7)); OpAddLoad (RKey 99) (fv 1 1 1);
    OpAddEdge (RXyz (fv 5 5 5)) (RKey 99) (DeviationEdge (zf 1)); OpNodeXyz 1 (fv 3 3 3);
    OpBuildTrails (@rev Z) true; OpShiftTrail 2 4].
Example C01_nonvacuous : Forall valid_op history
  /\ List.length (nodes (run empty_diagram history)) = 8%nat
  /\ trails (run empty_diagram history) = [(2, [2; 1; 0]); (5, [5; 4; 3]); (6, [6; 7])]
  /\ snd (call (trail_e zf 0 99 1) (made (braced_tower_2d zf))) = Err AttributeError.
Proof. split; [unfold history; valid|]. comps. Qed.

(** C02, C03, C05, C07 - C10: a reachable diagram with nodes, edges, loads and supports *)
Example C02_nonvacuous : reachable tower /\ nodes tower = [0; 1; 2; 3; 4; 5]
  /\ snd (add_node None (fv 1 1 1) tower) = Ok 6
  /\ node_key tower (RXyz (fv 0 1 0)) = Some 1 /\ node_key tower (RXyz (fv 0 7 0)) = None
  /\ In (1, 5) (edges tower) /\ ~ In (5, 1) (edges tower) /\ In 0 (support_nodes tower).
Proof. split; [apply tower_reachable|]. comps. Qed.

(** C04: coordinates that differ but round to the same location *)
Definition near : vec float := V3 (PrimFloat.div (zf 1) (zf 4096)) (zf 1) (zf 0).
Example C04_nonvacuous : node_key tower (RXyz near) = Some 1
  /\ node_coordinates tower 1 = Ok (fv 0 1 0) /\ near <> fv 0 1 0.
Proof.
  split; [comp|]. split; [comp|]. intros E.
  assert (X : PrimFloat.eqb (vx near) (zf 0) = true) by (rewrite E; vm_compute; reflexivity).
  vm_compute in X. discriminate.
Qed.

(** C06: a triangle from three lines whose ends coincide up to rounding *)
Definition triangle : list (line (T := float)) :=
  [(fv 0 0 0, fv 0 1 0, TrailEdge (zf 1) None);
   (near, fv 1 0 0, DeviationEdge (zf 1));
   (fv 1 0 0, fv 0 0 0, DeviationEdge (zf 1))].
Example C06_nonvacuous : nodes (assemble 3 triangle) = [0; 1; 2]
  /\ edges (assemble 3 triangle) = [(0, 1); (1, 2); (2, 0)].
Proof. comps. Qed.

(** C60: such calls exist *)
Example C60_nonvacuous : reachable tower
  /\ exists d', add_edge (RXyz (fv 7 7 7)) (RKey 99) (DeviationEdge (zf 1)) tower = (d', Err AttributeError)
       /\ nodes d' = [0; 1; 2; 3; 4; 5; 6].
Proof.
  split; [apply tower_reachable|].
  exists (fst (add_edge (RXyz (fv 7 7 7)) (RKey 99) (DeviationEdge (zf 1)) tower)). comps.
Qed.
