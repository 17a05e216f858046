(** * Properties of the Grasshopper components and of the counters (C77 - C85)

    Generated by tools/gen_props.py from the lemmas of ComponentThms.v, SettingThms.v,
    CountThms.v, PartThms.v, SketchThms.v, GoalThms.v and WitnessComponents.v.  The vocabulary is in
    SpecComponents.v, SpecArtists.v, SpecDiagram.v, SpecTopology.v, SpecConstraints.v,
    SpecGoals.v and SpecOptimizer.v. *)

From Coq Require Import String List ZArith Bool Permutation Floats Reals Lra.
From Verif Require Import Py PyFacts Num Diagram DiagramFacts Topology Equilibrium Constraints Optimizer RVec SpecStatics SpecConstraints SpecGoals SpecOptimizer History Fixtures
  SpecDiagram SpecTopology SpecEquilibrium ReadyThms Artists SpecArtists Components SpecComponents ComponentThms
  SettingThms CountThms PartThms SketchThms GoalThms Witness WitnessEq WitnessCon WitnessDraw WitnessComponents.
Import ListNotations.
Open Scope Z_scope.

Section Generic.
  Context {T : Type} `{NumOps T}.
  Implicit Types (d : diagram T).

  (** ** Assembly *)

  (** If every load and every support is at the end of a line, then the component returns the diagram of
      the lines with these loads and supports, and with its trails traced if trail edges and supports are
      given, or deviation edges and auxiliary trails are; an exception in tracing is passed on. *)
  Theorem C77_assembly : forall ord tes des ls ss aux,
    (forall p q, In (p, q) (connected ls) -> meets (connected tes ++ connected des) p) ->
    (forall p, In p (connected ss) -> meets (connected tes ++ connected des) p) ->
    exists d, reachable d /\ drawn_from (connected tes ++ connected des) (connected ls) (connected ss) d
      /\ ((tes <> [] /\ ss <> []) \/ (des <> [] /\ aux = Some true) ->
            (aux = Some true -> gh_topology ord tes des ls ss aux = outcome (build_trails ord true) d)
            /\ (aux <> Some true -> gh_topology ord tes des ls ss aux = outcome (build_trails ord false) d))
      /\ (~ ((tes <> [] /\ ss <> []) \/ (des <> [] /\ aux = Some true)) -> gh_topology ord tes des ls ss aux = Ok d).
  Proof. exact c77_assembly. Qed.
  (** A topology whose trail edges form chains, each ending in its one support, is returned ready for form
      finding: all nodes must lie on the chains unless auxiliary trails are asked for. *)
  Theorem C77_ready : forall ord tes des ls ss aux, same_set_order ord -> tes <> [] \/ aux = Some true ->
    (forall p q, In (p, q) (connected ls) -> meets (connected tes ++ connected des) p) ->
    (forall p, In p (connected ss) -> meets (connected tes ++ connected des) p) ->
    exists d, reachable d /\ drawn_from (connected tes ++ connected des) (connected ls) (connected ss) d
      /\ forall P, chains d P -> P <> [] -> aux = Some true \/ covers d P ->
         exists d', gh_topology ord tes des ls ss aux = Ok d' /\ ready d'.
  Proof. exact c77_ready. Qed.
  (** A load or a support that is not at the end of any line is rejected. *)
  Theorem C77_rejects : forall ord tes des ls ss aux p,
    In p (map fst (connected ls) ++ connected ss) -> ~ meets (connected tes ++ connected des) p ->
    gh_topology ord tes des ls ss aux = Err (ValueError "A node doesn't exist").
  Proof. exact c77_rejects. Qed.
  (** A trail edge that was drawn from [a] to [b] is found there, with the length and the plane it was given. *)
  Theorem C77_trail_edge : forall ord tes des ls ss aux d a b l plane, same_set_order ord ->
    gh_topology ord tes des ls ss aux = Ok d -> aux <> Some true ->
    In (gh_trail_edge (Some (a, b)) (Some l) plane) tes ->
    (forall a' b' el, In (Some (a', b', el)) (tes ++ des) -> rounded 3 a' = rounded 3 a -> rounded 3 b' = rounded 3 b -> el = TrailEdge l plane) ->
    exists e, gh_search_edge d a b = Ok e /\ In e (trail_edges d) /\ edge_length_2 d e = Ok l /\ edge_plane d e = Ok plane.
  Proof. exact c77_trail_edge. Qed.
  (** A deviation edge that was drawn from [a] to [b] is found there, with the force it was given. *)
  Theorem C77_deviation_edge : forall ord tes des ls ss aux d a b f, same_set_order ord ->
    gh_topology ord tes des ls ss aux = Ok d -> aux <> Some true ->
    In (gh_deviation_edge (Some (a, b)) (Some f)) des ->
    (forall a' b' el, In (Some (a', b', el)) (tes ++ des) -> rounded 3 a' = rounded 3 a -> rounded 3 b' = rounded 3 b -> el = DeviationEdge f) ->
    exists e, gh_search_edge d a b = Ok e /\ In e (deviation_edges d) /\ edge_force d e = Ok f.
  Proof. exact c77_deviation_edge. Qed.
  (** A load that was drawn at [p] acts on the node there. *)
  Theorem C77_load : forall ord tes des ls ss aux d p q, same_set_order ord ->
    gh_topology ord tes des ls ss aux = Ok d -> aux <> Some true ->
    In (gh_load (Some p) (Some q)) ls ->
    (forall p' q', In (Some (p', q')) ls -> rounded 3 p' = rounded 3 p -> q' = q) ->
    exists n, gh_search_node d p = Ok n /\ node_load d n = Ok q.
  Proof. exact c77_load. Qed.
  (** A support that was drawn at [p] supports the node there, if the trail edges form chains that end in their
      supports and cover all nodes, or if no trails are traced. *)
  Theorem C77_support : forall ord tes des ls ss aux d p, same_set_order ord ->
    gh_topology ord tes des ls ss aux = Ok d -> aux <> Some true -> In (gh_support (Some p)) ss ->
    tes = [] \/ (exists d0 P, reachable d0 /\ drawn_from (connected tes ++ connected des) (connected ls) (connected ss) d0
                   /\ build_trails ord false d0 = (d, Ok tt) /\ chains d0 P /\ covers d0 P /\ P <> []) ->
    exists n, gh_search_node d p = Ok n /\ is_node_support d n = Ok true.
  Proof. exact c77_support. Qed.

  (** ** Moving and shifting *)

  (** The listed nodes are put at the points, the last point being repeated; nothing else changes.  The
      topology stays ready for form finding. *)
  Theorem C78_move_partial : forall d keys points, reachable d -> keys <> [] -> points <> [] -> NoDup keys -> incl keys (nodes d) ->
    exists d', gh_move_origins (Some d) keys points = Some (Ok d')
      /\ reachable d' /\ (ready d -> ready d')
      /\ (forall i k p, nth_error keys i = Some k -> repeated points i p -> node_coordinates d' k = Ok p)
      /\ (forall n, ~ In n keys -> same_node d d' n)
      /\ (forall n, node_load d' n = node_load d n /\ reaction_force d' n = reaction_force d n
            /\ node_sequence d' n = node_sequence d n /\ is_node_support d' n = is_node_support d n
            /\ is_node_origin d' n = is_node_origin d n)
      /\ nodes d' = nodes d /\ same_edges d d' /\ same_settings d d'
      /\ (forall r, node_key d' r = node_key d r).
  Proof. exact c78_move_partial. Qed.
  (** The trails of the listed origins start at the sequences, the last one being repeated; the sequences
      of the other trails and everything else stay. *)
  Theorem C78_shift : forall d keys sequences, reachable d -> ready d -> keys <> [] -> sequences <> [] -> NoDup keys ->
    (forall k, In k keys -> is_node_origin d k = Ok true /\ exists tr, In (k, tr) (trails d)) ->
    (forall s, In s sequences -> 0 <= s) ->
    exists d', gh_shift_trails (Some d) keys sequences = Some (Ok d')
      /\ reachable d' /\ ready d' /\ same_but_types_and_sequences d d' /\ same_settings d d'
      /\ (forall n, is_node_origin d' n = is_node_origin d n /\ is_node_support d' n = is_node_support d n)
      /\ (forall j k s tr, nth_error keys j = Some k -> repeated sequences j s -> In (k, tr) (trails d) ->
            forall i n, nth_error tr i = Some n -> node_sequence d' n = Ok (s + Z.of_nat i))
      /\ (forall n, (forall k tr, In k keys -> In (k, tr) (trails d) -> ~ In n tr) -> node_sequence d' n = node_sequence d n).
  Proof. exact c78_shift. Qed.

  (** ** Searching *)

  (** The node found at a point is the node there, and there is a node unless an exception is raised. *)
  Theorem C79_node : forall ord ls loads supports d0 d p, reachable d0 -> drawn_from ls loads supports d0 -> same_set_order ord ->
    (d = d0 \/ build_trails ord false d0 = (d, Ok tt)) ->
    (forall n, gh_search_node d p = Ok n
       <-> In n (nodes d) /\ exists q, node_coordinates d n = Ok q /\ rounded 3 q = rounded 3 p)
    /\ (gh_search_node d p = Err KeyError <-> ~ meets ls p).
  Proof. exact c79_node. Qed.
  (** A line that runs along an edge, from its first end to its second, finds the key of the edge. *)
  Theorem C79_edge_partial : forall ord ls loads supports d0 d a b u v p q, reachable d0 -> drawn_from ls loads supports d0 -> same_set_order ord ->
    (d = d0 \/ build_trails ord false d0 = (d, Ok tt)) ->
    In (u, v) (edges d) -> node_coordinates d u = Ok p -> node_coordinates d v = Ok q ->
    rounded 3 p = rounded 3 a -> rounded 3 q = rounded 3 b ->
    gh_search_edge d a b = Ok (u, v).
  Proof. exact c79_edge_partial. Qed.

  (** ** Defaults *)

  (** Form finding uses the passes and the threshold that are given, and 100 and 1e-6 otherwise. *)
  Theorem C80_form_finding_partial : forall d kmax tmax eta t e, setting tmax 100 t -> setting eta neps6 e -> t <> 0 -> neqb e n0 = false ->
    gh_form_finding d kmax tmax eta = static_equilibrium d kmax t e false.
  Proof. exact c80_form_finding_partial. Qed.
  (** A constraint has the weight that is given, and 1 otherwise. *)
  Theorem C80_weight_partial : forall K V (goal : K -> V -> goal T) k v weight w, setting weight n1 w -> neqb w n0 = false ->
    gh_constraint goal (Some k) (Some v) weight = Some (mkConstraint (goal k v) w).
  Proof. exact c80_weight_partial. Qed.
  (** Constrained form finding is the optimization with the constraints and parameters that are not None, by
      automatic differentiation, and with the settings that are given or their defaults. *)
  Theorem C80_constrained_partial : forall ad solver e8 h d cs ps algorithm iters eps kappa tmax eta a i ep ka t et,
    cs <> [] -> ps <> [] ->
    setting algorithm "SLSQP"%string a -> setting iters 100 i -> setting eps neps6 ep -> setting kappa e8 ka -> setting tmax 100 t -> setting eta neps6 et ->
    a <> ""%string -> i <> 0 -> neqb ep n0 = false -> neqb ka n0 = false -> t <> 0 -> neqb et n0 = false ->
    gh_constrained ad solver e8 h true (Some d) cs ps algorithm iters eps kappa tmax eta
    = Some (solve ad solver a "AD" h i (Some ep) (Some ka) t et
              (after_calls (map AddConstraint (connected cs) ++ map AddParameter (connected ps)), d)).
  Proof. exact c80_constrained_partial. Qed.

  (** ** Counters *)

  (** Each counter counts what its name says. *)
  Theorem C81_counts : forall d, reachable d ->
    counts (fun n => is_node_support d n = Ok true) (number_of_support_nodes d)
    /\ counts (fun e => is_trail_edge d e = Ok true) (number_of_trail_edges d)
    /\ counts (fun e => is_deviation_edge d e = Ok true) (number_of_deviation_edges d)
    /\ counts (fun key => exists tr, In (key, tr) (trails d)) (number_of_trails d)
    /\ counts (fun e => is_auxiliary_trail_edge d e = true) (number_of_auxiliary_trails d)
    /\ (exists m, number_of_loaded_nodes d = Ok m
          /\ counts (fun n => exists q, node_load d n = Ok q /\ nltb neps6 (length_vector q) = true) m)
    /\ number_of_trail_edges d + number_of_deviation_edges d = Z.of_nat (List.length (edges d)).
  Proof. exact c81_counts. Qed.
  (** Once every node has a sequence, the deviation edges are direct or indirect. *)
  Theorem C81_deviations : forall d, reachable d -> sequenced d ->
    exists i j, number_of_direct_deviation_edges d = Ok i /\ number_of_indirect_deviation_edges d = Ok j
      /\ counts (fun e => In e (deviation_edges d) /\ node_sequence d (fst e) = node_sequence d (snd e)) i
      /\ counts (fun e => In e (deviation_edges d) /\ node_sequence d (fst e) <> node_sequence d (snd e)) j
      /\ i + j = number_of_deviation_edges d.
  Proof. exact c81_deviations. Qed.
  (** A topology that is ready for form finding has one support per trail, and one trail edge less than nodes on each. *)
  Theorem C81_ready : forall d, reachable d -> ready d ->
    number_of_trails d = number_of_support_nodes d
    /\ number_of_trail_edges d + number_of_trails d = Z.of_nat (List.length (nodes d)).
  Proof. exact c81_ready. Qed.
  (** On coordinates, node_exists tells whether there is a node at the point. *)
  Theorem C81_exists_partial : forall ord ls loads supports d0 d p, reachable d0 -> drawn_from ls loads supports d0 -> same_set_order ord ->
    (d = d0 \/ build_trails ord false d0 = (d, Ok tt)) ->
    (node_exists d (RXyz p) = true <-> exists n q, In n (nodes d) /\ node_coordinates d n = Ok q /\ rounded 3 q = rounded 3 p).
  Proof. exact c81_exists_partial. Qed.

  (** ** Results *)

  (** The lengths and the forces of the edges asked for, in order; of all edges if none are. *)
  Theorem C82_edges : forall d keys es, chosen keys (edges d) es ->
    forall ls fs, gh_results_edges d keys = Ok (ls, fs)
      <-> List.length ls = List.length es /\ List.length fs = List.length es
          /\ (forall i e l, nth_error es i = Some e -> nth_error ls i = Some l -> edge_length_2 d e = Ok l)
          /\ (forall i e f, nth_error es i = Some e -> nth_error fs i = Some f -> edge_force d e = Ok f).
  Proof. exact c82_edges. Qed.
  (** The reaction forces at the nodes asked for, in order; at all supports if none are. *)
  Theorem C82_reactions : forall d keys ns, chosen keys (support_nodes d) ns ->
    forall rs, gh_results_supports d keys = Ok rs
      <-> List.length rs = List.length ns /\ forall i n r, nth_error ns i = Some n -> nth_error rs i = Some r -> reaction_force d n = Ok r.
  Proof. exact c82_reactions. Qed.

  (** ** Parts *)

  (** The parts of a topology that is ready for form finding: origins, supports, trail and deviation edges are those
      that are so; every edge is a trail edge or a deviation edge; every node is on one trail and in one
      sequence; the k-th group has the nodes with sequence k; the auxiliary trails are edges. *)
  Theorem C83_topology : forall d, reachable d -> ready d ->
    exists origins supports tes des seqs trs aux,
      gh_disassemble_topology d = Ok (nodes d, origins, supports, edges d, tes, des, seqs, trs, aux)
      /\ (NoDup origins /\ forall n, In n origins <-> is_node_origin d n = Ok true)
      /\ (NoDup supports /\ forall n, In n supports <-> is_node_support d n = Ok true)
      /\ (forall e, In e tes <-> is_trail_edge d e = Ok true)
      /\ (forall e, In e des <-> is_deviation_edge d e = Ok true)
      /\ Permutation (tes ++ des) (edges d)
      /\ Permutation (concat seqs) (nodes d)
      /\ (forall k g, nth_error seqs k = Some g -> forall n, In n g <-> In n (nodes d) /\ node_sequence d n = Ok (Z.of_nat k))
      /\ Permutation (concat trs) (nodes d)
      /\ (forall tr, In tr trs -> (exists s, ends_in tr s /\ In s supports) /\ forall a b, consecutive tr a b -> In (a, b) tes \/ In (b, a) tes)
      /\ (forall e, In e aux <-> is_auxiliary_trail_edge d e = true) /\ incl aux (edges d).
  Proof. exact c83_topology. Qed.
  (** Disassembling what was assembled gives back the chains that were drawn, the heads of the chains as origins and
      their last nodes as supports. *)
  Theorem C83_assembled : forall ord tes des ls ss aux, same_set_order ord -> tes <> [] -> aux <> Some true ->
    (forall p q, In (p, q) (connected ls) -> meets (connected tes ++ connected des) p) ->
    (forall p, In p (connected ss) -> meets (connected tes ++ connected des) p) ->
    exists d0, reachable d0 /\ drawn_from (connected tes ++ connected des) (connected ls) (connected ss) d0
      /\ forall P, chains d0 P -> covers d0 P -> P <> [] ->
         exists d origins supports tes' des' seqs trs,
           gh_topology ord tes des ls ss aux = Ok d
           /\ gh_disassemble_topology d = Ok (nodes d0, origins, supports, edges d0, tes', des', seqs, trs, [])
           /\ (forall n, In n origins <-> exists p, In p P /\ starts_with p n)
           /\ (forall n, In n supports <-> exists p, In p P /\ ends_in p n)
           /\ Permutation trs P.
  Proof. exact c83_assembled. Qed.
  (** The parts of a diagram or of a form *)
  Theorem C83_form : forall d, produced d ->
    exists supports, gh_disassemble_form d = (nodes d, supports, edges d)
      /\ NoDup supports /\ forall n, In n supports <-> is_node_support d n = Ok true.
  Proof. exact c83_form. Qed.
End Generic.
Print Assumptions C77_assembly.
Print Assumptions C77_ready.
Print Assumptions C77_rejects.
Print Assumptions C77_trail_edge.
Print Assumptions C77_deviation_edge.
Print Assumptions C77_load.
Print Assumptions C77_support.
Print Assumptions C78_move_partial.
Print Assumptions C78_shift.
Print Assumptions C79_node.
Print Assumptions C79_edge_partial.
Print Assumptions C80_form_finding_partial.
Print Assumptions C80_weight_partial.
Print Assumptions C80_constrained_partial.
Print Assumptions C81_counts.
Print Assumptions C81_deviations.
Print Assumptions C81_ready.
Print Assumptions C81_exists_partial.
Print Assumptions C82_edges.
Print Assumptions C82_reactions.
Print Assumptions C83_topology.
Print Assumptions C83_assembled.
Print Assumptions C83_form.

(** ** Drawings *)

(** The form component draws the nodes and edges asked for, or all, the supports among the nodes, and the arrows of
  their loads and reactions with the scale and from the magnitude that are given, or 1 and 1e-3. *)
Theorem C84_form_partial : forall (d : diagram R) ns sel es esel e3 gap force_min force_scale tol scale, produced d ->
  chosen (Some ns) (nodes d) sel -> chosen (Some es) (edges d) esel -> incl sel (nodes d) -> incl esel (edges d) ->
  (exists n, In n sel /\ In n (support_nodes d)) -> held_by_edges d sel ->
  setting force_min e3 tol -> setting force_scale 1%R scale -> tol <> 0%R -> (0 < scale)%R ->
  exists points supports lines loads reactions arrives,
    gh_artist_form e3 gap d ns es force_min force_scale = Ok (points, supports, lines, loads, reactions)
    /\ drawn_points d sel points /\ drawn_points d (filter (fun n => memb n (support_nodes d)) sel) supports
    /\ drawn_lines d esel lines
    /\ arrows_of d Load sel scale tol (fun _ => gap) (fun _ => false) loads
    /\ arrows_of d Reaction sel scale tol (fun _ => gap) arrives reactions
    /\ forall n, In n sel -> exists f, leads d n f /\ (arrives n = true <-> (f < 0)%R).
Proof. exact c84_form_partial. Qed.
(** The topology component draws the nodes and edges asked for, or all, the origins and the supports among the nodes, the
  trail and the deviation edges among the edges, the trails, and the arrows of the loads. *)
Theorem C84_topology_partial : forall (d : diagram R) ns sel es esel e3 gap force_min force_scale tol scale, produced d ->
  chosen (Some ns) (nodes d) sel -> chosen (Some es) (edges d) esel -> incl sel (nodes d) -> incl esel (edges d) ->
  (exists n, In n sel /\ In n (support_nodes d)) ->
  setting force_min e3 tol -> setting force_scale 1%R scale -> tol <> 0%R -> (0 < scale)%R ->
  exists points origins supports lines tlines dlines polylines loads,
    gh_artist_topology e3 gap d ns es force_min force_scale = Ok (points, origins, supports, lines, tlines, dlines, polylines, loads)
    /\ drawn_points d sel points /\ draws_nodes d (filter (fun n => memb n (origin_nodes d)) sel) (Ok origins)
    /\ drawn_points d (filter (fun n => memb n (support_nodes d)) sel) supports
    /\ drawn_lines d esel lines
    /\ draws_edges d (filter (fun e => memb e (trail_edges d)) esel) (Ok tlines)
    /\ draws_edges d (filter (fun e => memb e (deviation_edges d)) esel) (Ok dlines)
    /\ Forall2 (fun kt l => drawn_points d (snd kt) l) (trails d) polylines
    /\ arrows_of d Load sel scale tol (fun _ => gap) (fun _ => false) loads.
Proof. exact c84_topology_partial. Qed.
Print Assumptions C84_form_partial.
Print Assumptions C84_topology_partial.

(** ** Constraints and parameters *)

Open Scope R_scope.
(** The constraint components charge the weight given, or one, times the square of: the distance of the node from the point,
  the line, the plane or the polyline; the distance of the reaction at the node from the vector; the difference of the force
  in the trail edge, or of the distance between the ends of the deviation edge, from the number. *)
Theorem C85_constraints : forall weight w, setting weight 1 w -> w <> 0 ->
  (forall k t, exists c, gh_point_constraint (Some k) (Some t) weight = Some c
     /\ charges any_state c w (fun st y => exists p, node_at st k p /\ y = dist p t))
  /\ (forall k a b, exists c, gh_line_constraint (Some k) (Some (a, b)) weight = Some c
     /\ charges any_state c w (fun st y => exists p, node_at st k p /\ distance_to (on_line a b) p y))
  /\ (forall k o n, n <> v0 -> exists c, gh_plane_constraint (Some k) (Some (o, n)) weight = Some c
     /\ charges any_state c w (fun st y => exists p, node_at st k p /\ distance_to (on_plane o n) p y))
  /\ (forall k l, exists c, gh_polyline_constraint (Some k) (Some l) weight = Some c
     /\ charges any_state c w (fun st y => exists p, node_at st k p /\ distance_to (on_polyline l) p y))
  /\ (forall k r, exists c, gh_reaction_constraint (Some k) (Some r) weight = Some c
     /\ charges any_state c w (fun st y => exists q, dget (s_reac st) k = Some q /\ y = dist q r))
  /\ (forall e f, exists c, gh_force_constraint (Some e) (Some f) weight = Some c
     /\ charges any_state c w (fun st y => exists g, dget (s_tforce st) e = Some g /\ y = Rabs (g - f)))
  /\ (forall u v l, exists c, gh_length_constraint (Some (u, v)) (Some l) weight = Some c
     /\ charges any_state c w (fun st y => exists p q, node_at st u p /\ node_at st v q /\ y = Rabs (dist p q - l))).
Proof. exact c85_constraints. Qed.
(** The direction component charges the weight times the square of the distance of the direction of the edge from
  that of the vector or of its opposite, whichever is nearer. *)
Theorem C85_direction : forall weight w u v t, setting weight 1 w -> w <> 0 -> t <> v0 ->
  exists c, gh_direction_constraint (Some (u, v)) (Some t) weight = Some c
    /\ charges (directed (u, v)) c w (fun st y => exists p q, node_at st u p /\ node_at st v q
         /\ y = Rmin (dist (direction (q -v p)) (direction t)) (dist (direction (q -v p)) (-1 *v direction t))).
Proof. exact c85_direction. Qed.
(** Without a node, an edge or a target there is no constraint, and without a node or an edge no parameter. *)
Theorem C85_none : forall (weight : option R) (k : option Z) (e : option ekey) p ab l q f,
  gh_point_constraint None p weight = None /\ gh_point_constraint k None weight = None
  /\ gh_line_constraint None ab weight = None /\ gh_line_constraint k None weight = None
  /\ gh_plane_constraint None ab weight = None /\ gh_plane_constraint k None weight = None
  /\ gh_polyline_constraint None l weight = None /\ gh_polyline_constraint k None weight = None
  /\ gh_reaction_constraint None q weight = None /\ gh_reaction_constraint k None weight = None
  /\ gh_force_constraint None f weight = None /\ gh_force_constraint e None weight = None
  /\ gh_length_constraint None f weight = None /\ gh_length_constraint e None weight = None
  /\ gh_direction_constraint None q weight = None /\ gh_direction_constraint e None weight = None
  /\ forall low up : option R, gh_origin_x_parameter None low up = None /\ gh_origin_y_parameter None low up = None
     /\ gh_origin_z_parameter None low up = None /\ gh_load_x_parameter None low up = None /\ gh_load_y_parameter None low up = None
     /\ gh_load_z_parameter None low up = None /\ gh_deviation_parameter None low up = None /\ gh_trail_parameter None low up = None.
Proof. exact c85_none. Qed.
(** The parameter components vary the coordinate of the origin, the component of the load, the force of the deviation edge
  or the length of the trail edge, from its value in the topology, within the bounds given. *)
Theorem C85_parameters : forall low up,
  (forall k, exists p, gh_origin_x_parameter (Some k) low up = Some p /\ varies p (fun d => let* x := node_coordinates d k in Ok (vx x)) low up)
  /\ (forall k, exists p, gh_origin_y_parameter (Some k) low up = Some p /\ varies p (fun d => let* x := node_coordinates d k in Ok (vy x)) low up)
  /\ (forall k, exists p, gh_origin_z_parameter (Some k) low up = Some p /\ varies p (fun d => let* x := node_coordinates d k in Ok (vz x)) low up)
  /\ (forall k, exists p, gh_load_x_parameter (Some k) low up = Some p /\ varies p (fun d => let* q := node_load d k in Ok (vx q)) low up)
  /\ (forall k, exists p, gh_load_y_parameter (Some k) low up = Some p /\ varies p (fun d => let* q := node_load d k in Ok (vy q)) low up)
  /\ (forall k, exists p, gh_load_z_parameter (Some k) low up = Some p /\ varies p (fun d => let* q := node_load d k in Ok (vz q)) low up)
  /\ (forall e, exists p, gh_deviation_parameter (Some e) low up = Some p /\ varies p (fun d => edge_force d e) low up)
  /\ (forall e, exists p, gh_trail_parameter (Some e) low up = Some p /\ varies p (fun d => edge_length_2 d e) low up).
Proof. exact c85_parameters. Qed.
Close Scope R_scope.
Print Assumptions C85_constraints.
Print Assumptions C85_direction.
Print Assumptions C85_none.
Print Assumptions C85_parameters.

(** ** Counterexamples *)

(** A moved origin is found where it was, and not where it is. *)
Theorem C78_refuted : exists (d d' : diagram float) k p q, reachable d /\ is_node_origin d k = Ok true
  /\ node_coordinates d k = Ok q /\ gh_move_origins (Some d) [k] [p] = Some (Ok d')
  /\ node_coordinates d' k = Ok p /\ gh_search_node d' p = Err KeyError /\ gh_search_node d' q = Ok k.
Proof. exact c78_refuted. Qed.
(** A line that runs along an edge the other way finds a key that is not an edge and has no force; so does a line
  between two nodes that no edge joins. *)
Theorem C79_refuted : exists (d : diagram float) u v p q a b x y, reachable d /\ In (u, v) (edges d)
  /\ node_coordinates d u = Ok p /\ node_coordinates d v = Ok q
  /\ gh_search_edge d q p = Ok (v, u) /\ ~ In (v, u) (edges d) /\ edge_force d (v, u) = Err KeyError
  /\ node_coordinates d a = Ok x /\ node_coordinates d b = Ok y
  /\ gh_search_edge d x y = Ok (a, b) /\ ~ In (a, b) (edges d) /\ ~ In (b, a) (edges d).
Proof. exact c79_refuted. Qed.
(** A weight of zero becomes one, and a limit of no passes becomes a hundred. *)
Theorem C80_refuted :
  (exists c : constraint float, gh_point_constraint (Some 0) (Some (fv 0 0 0)) (Some 0%float) = Some c /\ c_weight c = 1%float)
  /\ exists (d form : diagram float), reachable d /\ gh_form_finding d None (Some 0) None = Ok form
     /\ static_equilibrium d None 0 neps6 false = Err UnboundLocalError.
Proof. exact c80_refuted. Qed.
(** On keys, node_exists is true of every integer. *)
Theorem C81_refuted : exists (d : diagram float) k, reachable d /\ ~ In k (nodes d) /\ node_exists d (RKey k) = true.
Proof. exact c81_refuted. Qed.
(** A topology that was drawn without supports cannot be disassembled. *)
Theorem C83_refuted : exists (tes : list (option (line (T:=float)))) d, gh_topology id_order tes [] [] [] None = Ok d
  /\ nodes d <> [] /\ trail_edges d <> [] /\ gh_disassemble_topology d = Err TypeError.
Proof. exact c83_refuted. Qed.
(** If no selected node is a support all nodes are drawn as supports; a scale of zero is a scale of one. *)
Theorem C84_refuted : exists (d : diagram float) ns es e3 gap,
  (exists pts org sup ls tl dl trs lds, reachable d /\ gh_artist_topology e3 gap d ns es None None = Ok (pts, org, sup, ls, tl, dl, trs, lds)
     /\ (forall n, In n ns -> In n (nodes d) /\ ~ In n (support_nodes d)) /\ List.length sup = List.length (nodes d) /\ sup <> [])
  /\ gh_artist_topology e3 gap d ns es None (Some 0%float) = gh_artist_topology e3 gap d ns es None (Some 1%float)
  /\ exists n a, gh_loads d (Some ns) 1%float gap e3 = Ok [(n, a)].
Proof. exact c84_refuted. Qed.
Print Assumptions C78_refuted.
Print Assumptions C79_refuted.
Print Assumptions C80_refuted.
Print Assumptions C81_refuted.
Print Assumptions C83_refuted.
Print Assumptions C84_refuted.

(** ** The hypotheses can be met *)

(** The arch of three bars is assembled and ready for form finding. *)
Example C77_nonvacuous : (forall p q, In (p, q) (connected arch_loads) -> meets arch_lines p)
  /\ (forall p, In p (connected arch_supports) -> meets arch_lines p)
  /\ (exists d, reachable d /\ drawn_from arch_lines (connected arch_loads) (connected arch_supports) d
        /\ chains d arch_chains /\ covers d arch_chains)
  /\ exists d', gh_topology id_order arch_trails arch_deviations arch_loads arch_supports None = Ok d' /\ ready d'.
Proof.
  assert (NE : arch_trails <> []) by discriminate.
  assert (X := C77_ready id_order arch_trails arch_deviations arch_loads arch_supports None id_order_same (or_introl NE)).
  specialize (X arch_loads_meet arch_supports_meet). destruct X as (d&R&D&K).
  assert (A := arch_drawn d R D).
  split; [exact arch_loads_meet|]. split; [exact arch_supports_meet|]. split; [exists d; split; [exact R|]; split; [exact D|exact A]|].
  apply (K arch_chains); [apply A|discriminate|right; apply A].
Qed.

(** A support beside the arch is rejected. *)
Example C77_rejects_nonvacuous : ~ meets arch_lines (fv 9 9 9)
  /\ gh_topology id_order arch_trails arch_deviations arch_loads (Some (fv 9 9 9) :: arch_supports) None
     = Err (ValueError "A node doesn't exist").
Proof.
  assert (M : ~ meets arch_lines (fv 9 9 9)).
  { intros (q&I&E). vm_compute in I. repeat destruct I as [<-|I]; try (vm_compute in E; discriminate E). contradiction. }
  split; [exact M|]. apply (C77_rejects _ _ _ _ _ _ (fv 9 9 9)); [vm_compute; tauto|exact M].
Qed.

(** The two origins of the tower are put at one point, or their trails shifted to one sequence. *)
Example C78_nonvacuous : reachable tower_built /\ ready tower_built /\ NoDup [2; 5] /\ incl [2; 5] (nodes tower_built)
  /\ (forall k, In k [2; 5] -> is_node_origin tower_built k = Ok true /\ exists tr, In (k, tr) (trails tower_built))
  /\ repeated [3] 1 3.
Proof.
  split; [apply tower_built_reachable|]. split.
  { destruct (c61_built_ready tower id_order tower_chains tower_reachable id_order_same (proj1 tower_chains_ok) (proj2 tower_chains_ok) ltac:(discriminate)) as (d'&E&R).
    assert (X : build_trails id_order false tower = (tower_built, Ok tt)) by (vm_compute; reflexivity). congruence. }
  split; [apply nodup_b_ok; reflexivity|]. split; [intros k I; vm_compute in I |- *; tauto|]. split.
  - intros k [<-|[<-|[]]]; (split; [vm_compute; reflexivity|]); eexists; vm_compute; [left|right; left]; reflexivity.
  - right. split; [apply le_n|]. exists []. reflexivity.
Qed.

(** The first edge of the arch is found by its ends. *)
Example C79_nonvacuous : exists d, reachable d /\ drawn_from arch_lines (connected arch_loads) (connected arch_supports) d
  /\ gh_search_edge d (fv 1 0 0) (fv 0 0 0) = Ok (0, 1).
Proof.
  destruct (C77_assembly id_order arch_trails arch_deviations arch_loads arch_supports None arch_loads_meet arch_supports_meet) as (d&R&D&_).
  exists d. split; [exact R|]. split; [exact D|].
  assert (A : node_coordinates d 0 = Ok (fv 1 0 0) /\ node_coordinates d 1 = Ok (fv 0 0 0)).
  { assert (I : In 0 (nodes d) /\ In 1 (nodes d)) by (rewrite (df_nodes _ _ _ _ D); vm_compute; tauto).
    destruct (df_each _ _ _ _ D 0 (proj1 I)) as (p&q&t&E&C&_), (df_each _ _ _ _ D 1 (proj2 I)) as (p'&q'&t'&E'&C'&_).
    unfold node_coordinates. rewrite E, E'. vm_compute in C, C'. split; [exact (eq_sym C)|exact (eq_sym C')]. }
  apply (C79_edge_partial id_order arch_lines (connected arch_loads) (connected arch_supports) d d _ _ 0 1 (fv 1 0 0) (fv 0 0 0));
    [exact R|exact D|exact id_order_same|now left| |apply A|apply A|reflexivity|reflexivity].
  destruct (df_edges _ _ _ _ D) as (Ee&_). rewrite Ee. vm_compute. tauto.
Qed.

(** Settings that are given and settings that are not *)
Example C80_nonvacuous : setting (Some 20) 100 20 /\ setting (None : option Z) 100 100 /\ 20 <> 0
  /\ setting (Some 2%float) 1%float 2%float /\ neqb 2%float n0 = false.
Proof.
  split; [left; reflexivity|]. split; [right; split; reflexivity|]. split; [discriminate|]. split; [left; reflexivity|vm_compute; reflexivity].
Qed.

(** The tower: two trails and supports, four trail edges, two direct and three indirect deviation edges; and the tree
    with two auxiliary trails *)
Example C81_nonvacuous : reachable tower_built /\ sequenced tower_built
  /\ number_of_trails tower_built = 2 /\ number_of_support_nodes tower_built = 2 /\ number_of_trail_edges tower_built = 4
  /\ number_of_direct_deviation_edges tower_built = Ok 2 /\ number_of_indirect_deviation_edges tower_built = Ok 3
  /\ number_of_loaded_nodes tower_built = Ok 2
  /\ number_of_auxiliary_trails (made (tree_2d zf ++ [build_aux])) = 2.
Proof.
  split; [apply tower_built_reachable|]. split.
  { intros n I. vm_compute in I. repeat (destruct I as [<-|I]; [eexists; vm_compute; reflexivity|]). contradiction. }
  repeat split; vm_compute; reflexivity.
Qed.

(** All edges of the tower, and two of them *)
Example C82_nonvacuous : chosen None (edges tower) (edges tower) /\ chosen (Some [(1, 4); (0, 1)]) (edges tower) [(1, 4); (0, 1)]
  /\ gh_results_edges tower (Some [(1, 4); (0, 1)]) = Ok ([0; -1]%float, [-1; 0]%float).
Proof.
  split; [right; auto|]. split; [left; split; [reflexivity|discriminate]|]. vm_compute. reflexivity.
Qed.

(** The first trail edge, the deviation edge, a load and a support of the arch are given once, and the arch is assembled;
    so they are found in it with what they were given. *)
Example C77_elements_nonvacuous : exists d, gh_topology id_order arch_trails arch_deviations arch_loads arch_supports None = Ok d
  /\ In (gh_trail_edge (Some (fv 1 0 0, fv 0 0 0)) (Some (-1)%float) None) arch_trails
  /\ In (gh_deviation_edge (Some (fv 2 0 0, fv 1 0 0)) (Some (-1)%float)) arch_deviations
  /\ In (gh_load (Some (fv 1 0 0)) (Some (fv 0 (-1) 0))) arch_loads /\ In (gh_support (Some (fv 0 0 0))) arch_supports
  /\ (exists e, gh_search_edge d (fv 1 0 0) (fv 0 0 0) = Ok e /\ In e (trail_edges d) /\ edge_length_2 d e = Ok (-1)%float /\ edge_plane d e = Ok None)
  /\ (exists e, gh_search_edge d (fv 2 0 0) (fv 1 0 0) = Ok e /\ In e (deviation_edges d) /\ edge_force d e = Ok (-1)%float)
  /\ (exists n, gh_search_node d (fv 1 0 0) = Ok n /\ node_load d n = Ok (fv 0 (-1) 0))
  /\ exists n, gh_search_node d (fv 0 0 0) = Ok n /\ is_node_support d n = Ok true.
Proof.
  assert (X := C77_assembly id_order arch_trails arch_deviations arch_loads arch_supports None).
  specialize (X arch_loads_meet arch_supports_meet). destruct X as (d0&R&D&B&_).
  assert (NE : arch_trails <> [] /\ arch_supports <> []) by (split; discriminate).
  assert (Na : (None : option bool) <> Some true) by discriminate.
  destruct (B (or_introl NE)) as [_ B']. specialize (B' Na). assert (A := arch_drawn d0 R D).
  destruct C77_nonvacuous as (_&_&_&d&E&_). exists d. split; [exact E|].
  assert (Ebt : build_trails id_order false d0 = (d, Ok tt)).
  { rewrite E in B'. unfold outcome in B'. destruct (build_trails id_order false d0) as [d1 [[]|e]]; [injection B' as ->; reflexivity|discriminate B']. }
  assert (I1 : In (gh_trail_edge (Some (fv 1 0 0, fv 0 0 0)) (Some (-1)%float) None) arch_trails) by (left; reflexivity).
  assert (I2 : In (gh_deviation_edge (Some (fv 2 0 0, fv 1 0 0)) (Some (-1)%float)) arch_deviations) by (left; reflexivity).
  assert (I3 : In (gh_load (Some (fv 1 0 0)) (Some (fv 0 (-1) 0))) arch_loads) by (left; reflexivity).
  assert (I4 : In (gh_support (Some (fv 0 0 0))) arch_supports) by (left; reflexivity).
  split; [exact I1|]. split; [exact I2|]. split; [exact I3|]. split; [exact I4|].
  split; [|split; [|split]].
  - apply (C77_trail_edge id_order _ _ _ _ _ d _ _ _ _ id_order_same E Na I1).
    intros a b el I Ea Eb. repeat destruct I as [I|I]; try contradiction; try discriminate I; injection I as <- <- <-;
      try reflexivity; vm_compute in Ea; discriminate Ea.
  - apply (C77_deviation_edge id_order _ _ _ _ _ d _ _ _ id_order_same E Na I2).
    intros a b el I Ea Eb. repeat destruct I as [I|I]; try contradiction; try discriminate I; injection I as <- <- <-;
      try reflexivity; vm_compute in Ea, Eb; first [discriminate Ea|discriminate Eb].
  - apply (C77_load id_order _ _ _ _ _ d _ _ id_order_same E Na I3).
    intros p q I Ep. repeat destruct I as [I|I]; try contradiction; try discriminate I; injection I as <- <-; reflexivity.
  - apply (C77_support id_order _ _ _ _ _ d _ id_order_same E Na I4). right. exists d0, arch_chains.
    split; [exact R|]. split; [exact D|]. split; [exact Ebt|]. split; [apply A|]. split; [apply A|discriminate].
Qed.

(** The tower is ready and has parts; the arch is taken apart into its two chains. *)
Example C83_nonvacuous : reachable tower_built /\ ready tower_built
  /\ gh_disassemble_topology tower_built = Ok ([0; 1; 2; 3; 4; 5], [2; 5], [0; 3], edges tower_built, trail_edges tower_built, deviation_edges tower_built,
       [[2; 5]; [1; 4]; [0; 3]], [[2; 1; 0]; [5; 4; 3]], []).
Proof.
  destruct C78_nonvacuous as (R&Rd&_). split; [exact R|]. split; [exact Rd|]. vm_compute. reflexivity.
Qed.

(** The form of the chain of bars, drawn at two nodes, one of them its support, with a scale that is not given. *)
Example C84_nonvacuous : exists form : diagram R, produced form /\ chosen (Some [3; 2]) (nodes form) [3; 2] /\ chosen (Some []) (edges form) (edges form)
  /\ incl [3; 2] (nodes form) /\ (exists n, In n [3; 2] /\ In n (support_nodes form)) /\ held_by_edges form [3; 2]
  /\ setting (Some (/ 10)%R) (/ 1000)%R (/ 10)%R /\ setting None 1%R 1%R /\ (/ 10 <> 0)%R /\ (0 < 1)%R.
Proof.
  destruct rchain_support as (form&E&Hh&_). exists form.
  assert (P : produced form) by (right; do 5 eexists; split; [apply rchain_reachable|exact E]).
  destruct (EqThms.c37_frame _ _ _ _ _ _ rchain_reachable E) as (Nf&_&_&Sf&_).
  assert (N : nodes rchain = [0; 1; 2; 3]) by (lazy; reflexivity).
  assert (I : incl [3; 2] (nodes form)) by (rewrite Nf, N; intros n [<-|[<-|[]]]; cbn; auto).
  split; [exact P|]. split; [left; split; [reflexivity|discriminate]|]. split; [right; auto|]. split; [exact I|].
  split; [exists 3; split; [now left|]|].
  { apply ReadyThms.In_support_is; [apply FormFacts.produced_wf; exact P|]. rewrite Sf. lazy. reflexivity. }
  split; [intros n J; apply Hh, I, J|]. clear. split; [left; reflexivity|]. split; [right; split; reflexivity|]. split; lra.
Qed.

(** A state with two nodes, at a distance of 5: a length of 3 asked for with weight 2 costs 8. *)
Example C85_nonvacuous : setting (Some 2%R) 1%R 2%R /\ (2 <> 0)%R /\ directed (0, 1) two_nodes
  /\ exists c, gh_length_constraint (Some (0, 1)) (Some 3%R) (Some 2%R) = Some c /\ penalty two_nodes c = Ok 8%R.
Proof.
  assert (S2 : setting (Some 2%R) 1%R 2%R) by (left; reflexivity). assert (N2 : (2 <> 0)%R) by lra.
  assert (N0 : node_at two_nodes 0 (V3 0 0 0)%R) by reflexivity. assert (N1 : node_at two_nodes 1 (V3 3 4 0)%R) by reflexivity.
  split; [exact S2|]. split; [exact N2|]. split.
  - intros p q Np Nq. unfold node_at in *. cbn [fst snd] in *. rewrite N0 in Np. rewrite N1 in Nq. injection Np as <-. injection Nq as <-.
    intros E. apply (f_equal vx) in E. cbn in E. lra.
  - destruct (C85_constraints (Some 2%R) 2%R S2 N2) as (_&_&_&_&_&_&L). destruct (L 0 1 3%R) as (c&E&P). exists c. split; [exact E|].
    apply (P two_nodes 8%R I). exists 2%R. split; [|lra]. exists (V3 0 0 0)%R, (V3 3 4 0)%R. split; [exact N0|]. split; [exact N1|].
    assert (D : dist (V3 0 0 0)%R (V3 3 4 0)%R = 5%R).
    { unfold dist, norm, dot. cbn. match goal with |- R_sqrt.sqrt ?x = _ => replace x with (5 * 5)%R by ring end. apply R_sqrt.sqrt_square. lra. }
    rewrite D. rewrite Rabs_right; lra.
Qed.
