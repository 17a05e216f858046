(** * Diagrams: nodes, edges, supports and loads

    Model of compas_cem/diagrams/diagram.py, compas_cem/diagrams/mixins/*.py and
    the parts of compas.datastructures.Network (external to /repo) they call. *)

From Coq Require Import List ZArith Bool String.
From Verif Require Import Py Num.
Import ListNotations.
Open Scope Z_scope.

(** ** State *)

(** Values of the node attribute "type" written by the code
    (topology/topology.py:111 "support", :372 "_origin"). *)
Inductive ntype : Type := TSupport | TOrigin.

(** Values of the edge attribute "type" (elements/trail.py:19, deviation.py:12). *)
Inductive etype : Type := ETrail | EDeviation.

Definition ntype_eqb (a b : ntype) : bool :=
  match a, b with TSupport, TSupport | TOrigin, TOrigin => true | _, _ => false end.
Definition etype_eqb (a b : etype) : bool :=
  match a, b with ETrail, ETrail | EDeviation, EDeviation => true | _, _ => false end.

(** [x == "support"] where [x] may be [None]. *)
Definition opt_is {A} (eqA : A -> A -> bool) (o : option A) (a : A) : bool :=
  match o with Some b => eqA b a | None => false end.

(** Node attributes x,y,z / qx,qy,qz / rx,ry,rz / _k / type (diagram.py:24-34).
    Simplification: a missing entry of the attribute dictionary and an entry equal
    to its default value are identified (compas returns the default for both). *)
Record node_attr (T : Type) : Type := mkNode {
  na_xyz : vec T;
  na_load : vec T;
  na_reac : vec T;
  na_k : option Z;
  na_type : option ntype
}.
Arguments mkNode {T} _ _ _ _ _.
Arguments na_xyz {T} _.
Arguments na_load {T} _.
Arguments na_reac {T} _.
Arguments na_k {T} _.
Arguments na_type {T} _.

(** Edge attributes type / length / force (diagram.py:36-38) and plane
    (elements/trail.py:19). A plane is its base point and its normal. *)
Record edge_attr (T : Type) : Type := mkEdge {
  ea_type : option etype;
  ea_length : T;
  ea_force : T;
  ea_plane : option (vec T * vec T)
}.
Arguments mkEdge {T} _ _ _ _.
Arguments ea_type {T} _.
Arguments ea_length {T} _.
Arguments ea_force {T} _.
Arguments ea_plane {T} _.

(** A geometric key: the precision and the three formatted coordinates
    (compas.utilities.geometric_key; precisions other than "Nf" not modelled). *)
Definition gkey_t : Type := (nat * (gcoord * (gcoord * gcoord)))%type.

Definition ekey : Type := (Z * Z)%type.

(** The data of a TopologyDiagram: the containers of compas Graph (node, edge,
    adjacency, _max_node) and the entries of [attributes] set in diagram.py:40-41
    and topology/topology.py:41-44.  The adjacency dictionary maps a node to the
    ordered keys of its inner dictionary (their values are never used). *)
Record diagram (T : Type) : Type := mkDiagram {
  d_node : dict Z (node_attr T);
  d_edge : dict Z (dict Z (edge_attr T));
  d_adj : dict Z (list Z);
  d_max : Z;
  d_gkey : dict gkey_t Z;
  d_tol : nat;
  d_trails : dict Z (list Z);
  d_aux : dict Z ekey;
  d_aux_length : T;
  d_aux_vector : vec T
}.
Arguments mkDiagram {T} _ _ _ _ _ _ _ _ _ _.
Arguments d_node {T} _.
Arguments d_edge {T} _.
Arguments d_adj {T} _.
Arguments d_max {T} _.
Arguments d_gkey {T} _.
Arguments d_tol {T} _.
Arguments d_trails {T} _.
Arguments d_aux {T} _.
Arguments d_aux_length {T} _.
Arguments d_aux_vector {T} _.

(** A node address: an integer key or xyz coordinates (node_mixins.py:36-42). *)
Inductive nref (T : Type) : Type :=
| RKey (k : Z)
| RXyz (p : vec T).
Arguments RKey {T} k.
Arguments RXyz {T} p.

(** The attributes of an edge element: TrailEdge (elements/trail.py:18-20) and
    DeviationEdge (elements/deviation.py:11-13). *)
Inductive edge_elem (T : Type) : Type :=
| TrailEdge (length : T) (plane : option (vec T * vec T))
| DeviationEdge (force : T).
Arguments TrailEdge {T} length plane.
Arguments DeviationEdge {T} force.

Section Diagram.
  Context {T : Type} `{NumOps T}.

  (** *** Record updates *)
  Definition with_node (d : diagram T) x :=
    mkDiagram x (d_edge d) (d_adj d) (d_max d) (d_gkey d) (d_tol d) (d_trails d) (d_aux d) (d_aux_length d) (d_aux_vector d).
  Definition with_edge (d : diagram T) x :=
    mkDiagram (d_node d) x (d_adj d) (d_max d) (d_gkey d) (d_tol d) (d_trails d) (d_aux d) (d_aux_length d) (d_aux_vector d).
  Definition with_adj (d : diagram T) x :=
    mkDiagram (d_node d) (d_edge d) x (d_max d) (d_gkey d) (d_tol d) (d_trails d) (d_aux d) (d_aux_length d) (d_aux_vector d).
  Definition with_max (d : diagram T) x :=
    mkDiagram (d_node d) (d_edge d) (d_adj d) x (d_gkey d) (d_tol d) (d_trails d) (d_aux d) (d_aux_length d) (d_aux_vector d).
  Definition with_gkey (d : diagram T) x :=
    mkDiagram (d_node d) (d_edge d) (d_adj d) (d_max d) x (d_tol d) (d_trails d) (d_aux d) (d_aux_length d) (d_aux_vector d).
  Definition with_tol (d : diagram T) x :=
    mkDiagram (d_node d) (d_edge d) (d_adj d) (d_max d) (d_gkey d) x (d_trails d) (d_aux d) (d_aux_length d) (d_aux_vector d).
  Definition with_trails (d : diagram T) x :=
    mkDiagram (d_node d) (d_edge d) (d_adj d) (d_max d) (d_gkey d) (d_tol d) x (d_aux d) (d_aux_length d) (d_aux_vector d).
  Definition with_aux (d : diagram T) x :=
    mkDiagram (d_node d) (d_edge d) (d_adj d) (d_max d) (d_gkey d) (d_tol d) (d_trails d) x (d_aux_length d) (d_aux_vector d).
  Definition with_aux_length (d : diagram T) x :=
    mkDiagram (d_node d) (d_edge d) (d_adj d) (d_max d) (d_gkey d) (d_tol d) (d_trails d) (d_aux d) x (d_aux_vector d).
  Definition with_aux_vector (d : diagram T) x :=
    mkDiagram (d_node d) (d_edge d) (d_adj d) (d_max d) (d_gkey d) (d_tol d) (d_trails d) (d_aux d) (d_aux_length d) x.

  (** Default attributes (diagram.py:24-38). *)
  Definition default_node : node_attr T := mkNode vzero vzero vzero None None.
  Definition default_edge : edge_attr T := mkEdge None n0 n0 None.

  (** An empty TopologyDiagram (diagram.py:21-41, topology/topology.py:38-44). *)
  Definition empty_diagram : diagram T :=
    mkDiagram [] [] [] (-1) [] 3 [] [] (nopp n1) (V3 n1 n1 n1).

  Definition set_xyz (a : node_attr T) p := mkNode p (na_load a) (na_reac a) (na_k a) (na_type a).
  Definition set_load (a : node_attr T) q := mkNode (na_xyz a) q (na_reac a) (na_k a) (na_type a).
  Definition set_reac (a : node_attr T) r := mkNode (na_xyz a) (na_load a) r (na_k a) (na_type a).
  Definition set_k (a : node_attr T) k := mkNode (na_xyz a) (na_load a) (na_reac a) (Some k) (na_type a).
  Definition set_type (a : node_attr T) t := mkNode (na_xyz a) (na_load a) (na_reac a) (na_k a) (Some t).
  Definition set_force (a : edge_attr T) f := mkEdge (ea_type a) (ea_length a) f (ea_plane a).
  Definition set_length (a : edge_attr T) l := mkEdge (ea_type a) l (ea_force a) (ea_plane a).

  (** *** compas Graph: access *)

  (** Graph.nodes() *)
  Definition nodes (d : diagram T) : list Z := dkeys (d_node d).

  (** Graph.has_node *)
  Definition has_node (d : diagram T) (n : Z) : bool := dmem (d_node d) n.

  (** The attributes of a node; KeyError if there is no such node
      (Graph.node_attribute, Graph.node_attributes). *)
  Definition node_get (d : diagram T) (n : Z) : res (node_attr T) := dgetr (d_node d) n.

  (** Graph.edges(): by first node, then by second, in insertion order. *)
  Definition edges (d : diagram T) : list ekey :=
    flat_map (fun ue => map (fun va => (fst ue, fst va)) (snd ue)) (d_edge d).

  (** Graph.has_edge(u, v): directed. *)
  Definition edge_find (d : diagram T) (e : ekey) : option (edge_attr T) :=
    match dget (d_edge d) (fst e) with
    | Some nbrs => dget nbrs (snd e)
    | None => None
    end.
  Definition has_edge (d : diagram T) (e : ekey) : bool :=
    match edge_find d e with Some _ => true | None => false end.

  (** The attributes of an edge; KeyError if there is no such edge
      (Graph.edge_attribute). *)
  Definition edge_get (d : diagram T) (e : ekey) : res (edge_attr T) :=
    match edge_find d e with Some a => Ok a | None => Err KeyError end.

  (** Graph.neighbors *)
  Definition neighbors (d : diagram T) (n : Z) : res (list Z) := dgetr (d_adj d) n.

  (** Graph.connected_edges: for every neighbour, (node, nbr) if that edge is
      stored and (nbr, node) otherwise. *)
  Definition connected_edges (d : diagram T) (n : Z) : res (list ekey) :=
    let* nbrs := neighbors d n in
    let* out := dgetr (d_edge d) n in
    Ok (map (fun m => if dmem out m then (n, m) else (m, n)) nbrs).

  (** *** compas Graph: modification *)

  (** Graph.node_attribute(s)(key, ..., value): KeyError if absent. *)
  Definition node_set (n : Z) (f : node_attr T -> node_attr T) : eff (diagram T) unit :=
    fun d => match dget (d_node d) n with
             | Some a => (with_node d (dset (d_node d) n (f a)), Ok tt)
             | None => (d, Err KeyError)
             end.

  (** Graph.edge_attribute(key, name, value): KeyError if absent. *)
  Definition edge_set (e : ekey) (f : edge_attr T -> edge_attr T) : eff (diagram T) unit :=
    fun d => match dget (d_edge d) (fst e) with
             | Some nbrs =>
                 match dget nbrs (snd e) with
                 | Some a => (with_edge d (dset (d_edge d) (fst e) (dset nbrs (snd e) (f a))), Ok tt)
                 | None => (d, Err KeyError)
                 end
             | None => (d, Err KeyError)
             end.

  (** Graph.add_node(key, x=, y=, z=): an automatic key is [_max_node + 1]; an
      existing node keeps its other attributes. *)
  Definition graph_add_node (key : option Z) (p : vec T) (d : diagram T) : diagram T * Z :=
    let k := match key with Some k => k | None => d_max d + 1 end in
    let mx := if Z.ltb (d_max d) k then k else d_max d in
    let d := with_max d mx in
    match dget (d_node d) k with
    | Some a => (with_node d (dset (d_node d) k (set_xyz a p)), k)
    | None =>
        let d := with_node d (dset (d_node d) k (set_xyz default_node p)) in
        let d := with_edge d (dset (d_edge d) k []) in
        let d := with_adj d (dset (d_adj d) k []) in
        (d, k)
    end.

  (** [data.update(attr)] for the attributes of an edge element
      (edge_mixins.py:45, elements/trail.py:19, elements/deviation.py:12). *)
  Definition edge_merge (e : edge_elem T) (a : edge_attr T) : edge_attr T :=
    match e with
    | TrailEdge l p => mkEdge (Some ETrail) l (ea_force a) p
    | DeviationEdge f => mkEdge (Some EDeviation) (ea_length a) f (ea_plane a)
    end.

  (** [adjacency[u][v] = None] if absent *)
  Definition adj_add (d : diagram T) (u v : Z) : diagram T :=
    match dget (d_adj d) u with
    | Some l => if memb v l then d else with_adj d (dset (d_adj d) u (l ++ [v]))
    | None => d (* not reachable: every node has an adjacency entry *)
    end.

  (** Graph.add_edge(u, v, attr_dict).  For an unknown key compas calls
      [self.add_node(u)], which is NodeMixins.add_node and raises AttributeError
      on [u.key] because [u] is an int (node_mixins.py:20). *)
  Definition graph_add_edge (u v : Z) (el : edge_elem T) : eff (diagram T) ekey :=
    fun d =>
      if negb (has_node d u) then (d, Err AttributeError)
      else if negb (has_node d v) then (d, Err AttributeError)
      else
        let nbrs := match dget (d_edge d) u with Some x => x | None => [] end in
        let a := match dget nbrs v with Some a => a | None => default_edge end in
        let d := with_edge d (dset (d_edge d) u (dset nbrs v (edge_merge el a))) in
        let d := adj_add d u v in
        let d := adj_add d v u in
        (d, Ok (u, v)).

  (** *** compas_cem mixins *)

  (** gkey (node_mixins.py:61-65), compas.utilities.geometric_key with its
      sanitized zeros. *)
  Definition gkey (d : diagram T) (p : vec T) : gkey_t :=
    (d_tol d, (nround (d_tol d) (vx p), (nround (d_tol d) (vy p), nround (d_tol d) (vz p)))).

  (** node_key (node_mixins.py:36-42): integers are returned unchecked. *)
  Definition node_key (d : diagram T) (r : nref T) : option Z :=
    match r with
    | RKey k => Some k
    | RXyz p => dget (d_gkey d) (gkey d p)
    end.

  (** node_exists (node_mixins.py:28-34) *)
  Definition node_exists (d : diagram T) (r : nref T) : bool :=
    match node_key d r with Some _ => true | None => false end.

  (** add_node (node_mixins.py:16-26) *)
  Definition add_node (key : option Z) (p : vec T) : eff (diagram T) Z :=
    fun d =>
      let '(d, k) := graph_add_node key p d in
      (with_gkey d (dset (d_gkey d) (gkey d p) k), Ok k).

  (** update_node_xyz (node_mixins.py:44-51): deletes the lookup entry of the
      *new* location before adding the node again. *)
  Definition update_node_xyz (k : Z) (p : vec T) : eff (diagram T) unit :=
    fun d =>
      let g := gkey d p in
      let d := if dmem (d_gkey d) g then with_gkey d (ddel (d_gkey d) g) else d in
      (do* _ := add_node (Some k) p in eret tt) d.

  (** node_xyz(key) (node_mixins.py:53-58), Network.node_coordinates *)
  Definition node_coordinates (d : diagram T) (n : Z) : res (vec T) :=
    let* a := node_get d n in Ok (na_xyz a).

  (** One iteration of the loop of add_edge (edge_mixins.py:30-42). *)
  Definition resolve_end (r : nref T) : eff (diagram T) Z :=
    fun d => match node_key d r with
             | Some k => (d, Ok k)
             | None =>
                 match r with
                 | RXyz p => add_node None p d
                 | RKey _ => (d, Err TypeError) (* not reachable: node_key of an int is never None *)
                 end
             end.

  (** add_edge (edge_mixins.py:14-46) *)
  Definition add_edge (ru rv : nref T) (el : edge_elem T) : eff (diagram T) ekey :=
    do* u := resolve_end ru in
    do* v := resolve_end rv in
    graph_add_edge u v el.

  (** add_support (topology/topology.py:90-111) *)
  Definition add_support (r : nref T) : eff (diagram T) unit :=
    fun d => match node_key d r with
             | None => (d, Err (ValueError "A node doesn't exist"))
             | Some n => node_set n (fun a => set_type a TSupport) d
             end.

  (** add_load (topology/topology.py:113-129); the load vector has three components *)
  Definition add_load (r : nref T) (q : vec T) : eff (diagram T) unit :=
    fun d => match node_key d r with
             | None => (d, Err (ValueError "A node doesn't exist"))
             | Some n => node_set n (fun a => set_load a q) d
             end.

  (** *** Queries of diagram.py *)

  (** is_node_support (diagram.py:132-146, topology/topology.py:669-684) *)
  Definition is_node_support (d : diagram T) (n : Z) : res bool :=
    let* a := node_get d n in Ok (opt_is ntype_eqb (na_type a) TSupport).

  (** support_nodes (diagram.py:72-81) as the list it yields on a fixed diagram *)
  Definition support_nodes (d : diagram T) : list Z :=
    map fst (filter (fun na => opt_is ntype_eqb (na_type (snd na)) TSupport) (d_node d)).

  (** node_load (diagram.py:190-204) *)
  Definition node_load (d : diagram T) (n : Z) : res (vec T) :=
    let* a := node_get d n in Ok (na_load a).

  (** reaction_force (diagram.py:206-220) *)
  Definition reaction_force (d : diagram T) (n : Z) : res (vec T) :=
    let* a := node_get d n in Ok (na_reac a).

  (** edge_force (diagram.py:226-240) *)
  Definition edge_force (d : diagram T) (e : ekey) : res T :=
    let* a := edge_get d e in Ok (ea_force a).

  (** edge_length_2 (diagram.py:242-256) *)
  Definition edge_length_2 (d : diagram T) (e : ekey) : res T :=
    let* a := edge_get d e in Ok (ea_length a).

  (** edge_plane (diagram.py:258-272) *)
  Definition edge_plane (d : diagram T) (e : ekey) : res (option (vec T * vec T)) :=
    let* a := edge_get d e in Ok (ea_plane a).

  (** is_node_loaded (diagram.py:148-164) *)
  Definition is_node_loaded (d : diagram T) (n : Z) (min_force : T) : res bool :=
    let* q := node_load d n in Ok (nltb min_force (length_vector q)).

  (** loaded_nodes (diagram.py:83-100) *)
  Definition loaded_nodes (d : diagram T) (min_force : T) : res (list Z) :=
    filter_res (fun n => is_node_loaded d n min_force) (nodes d).

  (** is_edge_supported (diagram.py:170-184) *)
  Definition is_edge_supported (d : diagram T) (e : ekey) : res bool :=
    let* a := is_node_support d (fst e) in
    let* b := is_node_support d (snd e) in
    Ok (a || b).
End Diagram.
