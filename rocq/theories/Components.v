(** * The Grasshopper components

    Model of the RunScript methods in ghpython/components/*/code.py.

    An input that is not connected is None; a list input without items is the empty
    list.  The conversions between Rhino and COMPAS geometry (RhinoPoint.from_geometry
    and so on) are taken as the identity, and so is [copy()], since diagrams are values
    here.  Diagrams, edges, loads, supports and Rhino objects are truthy: none of them
    defines a length.  CompasCem_Proxy, CompasCem_Info and the JSON components only talk
    to a server, to the user and to files and are not modelled; CompasCem_ArtistColors returns constants and
    is not either; nor is the choice between
    the running server and a temporary one (ConstrainedFormFinding/code.py:28-34, 47-49). *)

From Coq Require Import String List ZArith Bool.
From Verif Require Import Py Num Diagram Topology Equilibrium Constraints Optimizer Artists.
Import ListNotations.
Open Scope Z_scope.

(** The items of a list input that are not None ([if item: ...] in a loop,
    TopologyDiagram/code.py:16-33; [c for c in cs if c is not None],
    ConstrainedFormFinding/code.py:24-26) *)
Fixpoint somes {A} (l : list (option A)) : list A :=
  match l with [] => [] | Some a :: l => a :: somes l | None :: l => somes l end.

(** [if l] of a list *)
Definition nonempty {A} (l : list A) : bool := match l with [] => false | _ => true end.

(** compas.utilities.iterable_like(target, reference, fillvalue): as many items as
    [target], those of [reference] followed by [fill] *)
Fixpoint iterable_like {A B} (target : list A) (reference : list B) (fill : B) : list B :=
  match target, reference with
  | [], _ => []
  | _ :: t, [] => fill :: iterable_like t [] fill
  | _ :: t, b :: r => b :: iterable_like t r fill
  end.

(** [x or default] for an integer and for a string *)
Definition or_int (x : option Z) (default : Z) : Z :=
  match x with Some z => if Z.eqb z 0 then default else z | None => default end.
Definition or_string (x : option string) (default : string) : string :=
  match x with Some s => if String.eqb s "" then default else s | None => default end.

Section Components.
  Context {T : Type} `{NumOps T}.

  (** [x or default] for a float: None and zero are replaced *)
  Definition or_float (x : option T) (default : T) : T :=
    match x with Some v => if neqb v n0 then default else v | None => default end.

  (** ** Elements *)

  (** TrailEdgeComponent and DeviationEdgeComponent (EdgeTrail/code.py:13-20, EdgeDeviation/code.py:12-16),
      with Edge.from_line (elements/edge.py:27-44) *)
  Definition gh_trail_edge (line : option (vec T * vec T)) (length : option T) (plane : option (vec T * vec T))
      : option (vec T * vec T * edge_elem T) :=
    match line, length with
    | Some ab, Some l => Some (ab, TrailEdge l plane)
    | _, _ => None
    end.
  Definition gh_deviation_edge (line : option (vec T * vec T)) (force : option T)
      : option (vec T * vec T * edge_elem T) :=
    match line, force with
    | Some ab, Some f => Some (ab, DeviationEdge f)
    | _, _ => None
    end.

  (** NodeLoadComponent and NodeSupportComponent (NodeLoad/code.py:13-20, NodeSupport/code.py:11-16): the
      point with the load, and the point *)
  Definition gh_load (point vector : option (vec T)) : option (vec T * vec T) :=
    match point, vector with Some p, Some q => Some (p, q) | _, _ => None end.
  Definition gh_support (point : option (vec T)) : option (vec T) := point.

  (** ** Assembly *)

  (** AssembleTopologyDiagramComponent (TopologyDiagram/code.py:10-41); [ord] is the iteration order of the
      set in build_trails *)
  Definition gh_topology (ord : list Z -> list Z) (trail_edges deviation_edges : list (option (vec T * vec T * edge_elem T)))
      (loads : list (option (vec T * vec T))) (supports : list (option (vec T))) (auxiliary : option bool)
      : res (diagram T) :=
    let auxiliary := match auxiliary with Some b => b | None => false end in
    let add (_ : unit) (e : option (vec T * vec T * edge_elem T)) : eff (diagram T) unit :=
      match e with
      | Some (a, b, el) => do* _ := add_edge (RXyz a) (RXyz b) el in eret tt
      | None => eret tt
      end in
    let run : eff (diagram T) unit :=
      do* _ := eloop add trail_edges tt in
      do* _ := eloop add deviation_edges tt in
      do* _ := eloop (fun _ (l : option (vec T * vec T)) =>
                 match l with Some (p, q) => add_load (RXyz p) q | None => eret tt end) loads tt in
      do* _ := eloop (fun _ (s : option (vec T)) =>
                 match s with Some p => add_support (RXyz p) | None => eret tt end) supports tt in
      if nonempty trail_edges && nonempty supports then build_trails ord auxiliary
      else if nonempty deviation_edges && auxiliary then build_trails ord auxiliary
      else eret tt in
    match run empty_diagram with
    | (d, Ok _) => Ok d
    | (_, Err e) => Err e
    end.

  (** ** Changes of a copy *)

  (** A change of a copy that is returned unless it raises *)
  Definition on_copy (m : eff (diagram T) unit) (d : diagram T) : res (diagram T) :=
    match m d with (d', Ok _) => Ok d' | (_, Err e) => Err e end.

  (** MoveOriginNodesComponent (OriginNodesMove/code.py:11-22); node_attributes(key, "xyz", point) is
      compas's.  None: nothing is returned. *)
  Definition gh_move_origins (d : option (diagram T)) (keys : list Z) (points : list (vec T)) : option (res (diagram T)) :=
    match d, keys, points with
    | Some d, _ :: _, p :: _ =>
        let points := iterable_like keys points (List.last points p) in
        Some (on_copy (eloop (fun _ (kp : Z * vec T) => node_set (fst kp) (fun a => set_xyz a (snd kp)))
                             (combine keys points) tt) d)
    | _, _, _ => None
    end.

  (** ShiftTrailsSequenceComponent (TrailsShift/code.py:10-20) *)
  Definition gh_shift_trails (d : option (diagram T)) (keys sequences : list Z) : option (res (diagram T)) :=
    match d, keys, sequences with
    | Some d, _ :: _, s :: _ =>
        let sequences := iterable_like keys sequences (List.last sequences s) in
        Some (on_copy (eloop (fun _ (ks : Z * Z) => shift_trail (fst ks) (snd ks)) (combine keys sequences) tt) d)
    | _, _, _ => None
    end.

  (** ** Searches *)

  (** SearchNodeKeyComponent (SearchNodeKey/code.py:11-18) *)
  Definition gh_search_node (d : diagram T) (p : vec T) : res Z := dgetr (d_gkey d) (gkey d p).

  (** SearchEdgeKeyComponent (SearchEdgeKey/code.py:11-23): the one element of the list returned *)
  Definition gh_search_edge (d : diagram T) (a b : vec T) : res ekey :=
    let* u := dgetr (d_gkey d) (gkey d a) in
    let* v := dgetr (d_gkey d) (gkey d b) in
    Ok (u, v).

  (** ** Constraints and parameters *)

  (** The eight constraint components (Constraint*/code.py); an edge key that is given is truthy *)
  Definition gh_constraint {K V} (goal : K -> V -> goal T) (key : option K) (target : option V) (weight : option T)
      : option (constraint T) :=
    let weight := or_float weight n1 in
    match key, target with
    | Some k, Some v => Some (mkConstraint (goal k v) weight)
    | _, _ => None
    end.
  (** ConstraintNodePoint/code.py:11-16 *)
  Definition gh_point_constraint := gh_constraint (fun k p => PointGoal k p).
  (** ConstraintNodeLine/code.py:11-16 *)
  Definition gh_line_constraint := gh_constraint (fun k (l : vec T * vec T) => LineGoal k (fst l) (snd l)).
  (** ConstraintNodePlane/code.py:11-16 *)
  Definition gh_plane_constraint := gh_constraint (fun k (l : vec T * vec T) => PlaneGoal k (fst l) (snd l)).
  (** ConstraintNodePolyline/code.py:11-16 *)
  Definition gh_polyline_constraint := gh_constraint (fun k (l : list (vec T)) => PolylineGoal k l).
  (** ConstraintReactionForce/code.py:11-16 *)
  Definition gh_reaction_constraint := gh_constraint (fun k (q : vec T) => ReactionGoal k q).
  (** ConstraintTrailEdgeForce/code.py:10-14 *)
  Definition gh_force_constraint := gh_constraint (fun k (f : T) => TrailForceGoal k f).
  (** ConstraintDeviationEdgeLength/code.py:10-14 *)
  Definition gh_length_constraint := gh_constraint (fun k (l : T) => LengthGoal k l).
  (** ConstraintEdgeDirection/code.py:12-17 *)
  Definition gh_direction_constraint := gh_constraint (fun k (v : vec T) => DirectionGoal k v).

  (** The eight parameter components (Parameter*/code.py); an edge key that is given is truthy *)
  Definition gh_parameter {K} (s : K -> slot) (key : option K) (low up : option T) : option (parameter T) :=
    match key with Some k => Some (mkParam (s k) low up) | None => None end.
  (** ParameterNodeOriginX/code.py:10-15, ParameterNodeOriginY and ParameterNodeOriginZ alike; the attributes are in
      parameters/origin.py:17-19, 30-32, 43-45 *)
  Definition gh_origin_x_parameter := gh_parameter (fun k => NodeSlot k AX).
  Definition gh_origin_y_parameter := gh_parameter (fun k => NodeSlot k AY).
  Definition gh_origin_z_parameter := gh_parameter (fun k => NodeSlot k AZ).
  (** ParameterNodeLoadX/code.py:10-14, ParameterNodeLoadY and ParameterNodeLoadZ alike; the attributes are in
      parameters/load.py:17-19, 30-32, 43-45 *)
  Definition gh_load_x_parameter := gh_parameter (fun k => NodeSlot k AQX).
  Definition gh_load_y_parameter := gh_parameter (fun k => NodeSlot k AQY).
  Definition gh_load_z_parameter := gh_parameter (fun k => NodeSlot k AQZ).
  (** ParameterDeviationEdge/code.py:10-14 (parameters/deviation.py:16-18) and ParameterTrailEdge/code.py:10-14
      (parameters/trail.py:16-18) *)
  Definition gh_deviation_parameter := gh_parameter (fun e => EdgeSlot e AForce).
  Definition gh_trail_parameter := gh_parameter (fun e => EdgeSlot e ALength).

  (** ** Form finding *)

  (** FormFindingComponent (FormFinding/code.py:10-17) *)
  Definition gh_form_finding (d : diagram T) (kmax tmax : option Z) (eta : option T) : res (diagram T) :=
    static_equilibrium d kmax (or_int tmax 100) (or_float eta neps6) false.

  (** ConstrainedFormFindingComponent (ConstrainedFormFinding/code.py:11-54); [e8] is the literal 1e-8 and [h] the
      default step size of Optimizer.solve.  None: nothing is returned. *)
  Definition gh_constrained ad solver (e8 h : T) (go : bool) (d : option (diagram T))
      (cs : list (option (constraint T))) (ps : list (option (parameter T)))
      (algorithm : option string) (iters : option Z) (eps kappa : option T) (tmax : option Z) (eta : option T)
      : option ((optimizer T * diagram T) * res (diagram T)) :=
    let algorithm := or_string algorithm "SLSQP" in
    let iters := or_int iters 100 in
    let eps := or_float eps neps6 in
    let kappa := or_float kappa e8 in
    let tmax := or_int tmax 100 in
    let eta := or_float eta neps6 in
    match d with
    | Some d => if go && nonempty cs && nonempty ps
                then Some (solve_proxy ad solver d (somes cs) (somes ps) algorithm iters h (Some eps) (Some kappa) tmax eta)
                else None
    | None => None
    end.

  (** ** Results *)

  (** EdgeResultsComponent (ResultsEdges/code.py:8-16) *)
  Definition gh_results_edges (d : diagram T) (keys : option (list ekey)) : res (list T * list T) :=
    let keys := or_all keys (edges d) in
    let* lengths := map_res (edge_length_2 d) keys in
    let* forces := map_res (edge_force d) keys in
    Ok (lengths, forces).

  (** ReactionForcesComponent (ResultsSupportNodes/code.py:10-17) *)
  Definition gh_results_supports (d : diagram T) (keys : option (list Z)) : res (list (vec T)) :=
    map_res (reaction_force d) (or_all keys (support_nodes d)).

  (** FormDisassemblyComponent (DisassembleForm/code.py:8-16) *)
  Definition gh_disassemble_form (d : diagram T) : list Z * list Z * list ekey :=
    (nodes d, support_nodes d, edges d).

  (** TopologyDisassemblyComponent (DisassembleTopology/code.py:8-24): nodes, origins, supports, edges, trail edges,
      deviation edges, sequences, trails, auxiliary trails *)
  Definition gh_disassemble_topology (d : diagram T)
      : res (list Z * list Z * list Z * list ekey * list ekey * list ekey * list (list Z) * list (list Z) * list ekey) :=
    let* ss := sequences d in
    Ok (nodes d, origin_nodes d, support_nodes d, edges d, trail_edges d, deviation_edges d,
        map snd ss, dvalues (trails d), dvalues (auxiliary_trails d)).

  (** FormArtistComponent (ArtistForm/code.py:10-28); [e3] is the literal 1e-3 and [gap] the default of the artist *)
  Definition gh_artist_form (e3 gap : T) (d : diagram T) (ns : list Z) (es : list ekey) (force_min force_scale : option T) :=
    let ns := if nonempty ns then Some ns else None in
    let es := if nonempty es then Some es else None in
    let force_min := or_float force_min e3 in
    let force_scale := or_float force_scale n1 in
    let* points := gh_draw_nodes d ns in
    let* lines := gh_draw_edges d es in
    let* supports := gh_draw_supports d ns in
    let* loads := gh_loads d ns force_scale gap force_min in
    let* reactions := gh_reactions d ns force_scale gap force_min in
    Ok (points, supports, lines, loads, reactions).

  (** TopologyArtistComponent (ArtistTopology/code.py:10-33); a part that is None is not drawn *)
  Definition gh_artist_topology (e3 gap : T) (d : diagram T) (ns : list Z) (es : list ekey) (force_min force_scale : option T) :=
    let ns := if nonempty ns then Some ns else None in
    let es := if nonempty es then Some es else None in
    let force_min := or_float force_min e3 in
    let force_scale := or_float force_scale n1 in
    let* points := gh_draw_nodes d ns in
    let* origins := gh_draw_origins d ns in
    let* supports := gh_draw_supports d ns in
    let* lines := gh_draw_edges d es in
    let* trail_lines := gh_draw_edges_trail d es in
    let* deviation_lines := gh_draw_edges_deviation d es in
    let* trails := gh_draw_trails d in
    let* loads := gh_loads d ns force_scale gap force_min in
    Ok (points, origins, supports, lines, trail_lines, deviation_lines, trails, loads).
End Components.
