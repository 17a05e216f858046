import json
P=[]
def p(title, statement, quantifier, why, anchors):
    P.append(dict(id="C%02d"%(len(P)+1), title=title, statement=statement, quantifier=quantifier, why_tests_cant=why, anchors=anchors))
T="src/compas_cem/diagrams/topology/topology.py"; D="src/compas_cem/diagrams/diagram.py"
NM="src/compas_cem/diagrams/mixins/node_mixins.py"; EM="src/compas_cem/diagrams/mixins/edge_mixins.py"
F="src/compas_cem/equilibrium/force.py"; FN="src/compas_cem/equilibrium/force_numpy.py"
O="src/compas_cem/optimization/"; OP=O+"optimizer.py"
def a(f,*s): return [f+"::"+x for x in s]
# --- construction
p("Diagram integrity under every call history",
  "After any sequence of public mutating calls on a TopologyDiagram (add_node, add_edge, add_support, add_load, node_xyz, setting an attribute, tol, auxiliary settings, build_trails, shift_trail), including calls that raised, the diagram is a well-formed graph: node keys are unique, every edge joins two existing nodes, `neighbors` is symmetric and contains exactly the nodes joined by an edge in either direction, every coordinate lookup table entry names an existing node, and the automatic key counter is at least every node key.",
  "all finite sequences of public calls with arbitrary arguments, including failing calls",
  "An invariant over unbounded call histories; tests only build a few fixed fixtures.",
  a(NM,"NodeMixins.add_node","NodeMixins.update_node_xyz")+a(EM,"EdgeMixins.add_edge")+a(T,"TopologyDiagram.add_support","TopologyDiagram.add_load","TopologyDiagram.build_trails","TopologyDiagram.shift_trail"))
p("Automatic node keys are fresh",
  "add_node(Node(xyz=p)) without a key returns a key that no node of the diagram has, adds exactly one node at p with default attributes, and leaves every other node and every edge as it was.",
  "all reachable diagrams and all points",
  "Freshness must hold after any mixture of explicit and automatic keys.",
  a(NM,"NodeMixins.add_node")+a("src/compas_cem/elements/node.py","Node"))
p("add_node stores and indexes the node it is given",
  "add_node(Node(key, p)) returns key; node_coordinates(key) is then exactly p; node_key(p) is then key; every other node, all edges, loads and supports are unchanged; if key already existed only its coordinates change.",
  "all diagrams, keys (new or existing) and points",
  "Universally quantified read-after-write plus frame condition.",
  a(NM,"NodeMixins.add_node","NodeMixins.node_key","NodeMixins.gkey"))
p("Coordinate lookup finds a node that was registered at the looked-up location",
  "For a diagram built by any history, node_key(p) for a point p is either None or the key of an existing node, and that node was placed by add_node/node_xyz/add_edge at a point whose rounded coordinates equal the rounded coordinates of p (hence within one unit of the last rounded decimal in every coordinate).",
  "all call histories and all query points",
  "Depends on the whole history of insertions and moves.",
  a(NM,"NodeMixins.node_key","NodeMixins.gkey")+a(T,"TopologyDiagram.add_support","TopologyDiagram.add_load"))
p("add_edge resolves end points by location and creates only missing nodes",
  "add_edge with an end given by coordinates uses the node registered at that rounded location if there is one, and otherwise creates exactly one new node at exactly those coordinates; no existing node is moved, retyped or reloaded; the returned key joins the two resolved nodes and the edge exists afterwards.",
  "all diagrams and all edges given by coordinates",
  "Universal read-after-write/frame property.",
  a(EM,"EdgeMixins.add_edge")+a("src/compas_cem/elements/edge.py","Edge.from_line"))
p("Assembling a diagram from lines welds coincident end points",
  "A diagram assembled only from edges given as lines has exactly one node per distinct rounded end point: two line ends share a node if and only if their rounded coordinates coincide, and the number of nodes equals the number of distinct rounded end points.",
  "all finite lists of lines",
  "Unbounded list of lines; welding is a global property.",
  a(EM,"EdgeMixins.add_edge")+["src/compas_cem/ghpython/components/CompasCem_TopologyDiagram/code.py::AssembleTopologyDiagramComponent"])
p("add_edge writes exactly the given edge",
  "After add_edge(TrailEdge(u,v,length,plane)) on existing nodes, the edge (u,v) is a trail edge with that length and plane and its former force; after add_edge(DeviationEdge(u,v,force)) it is a deviation edge with that force and its former length and plane; no other edge and no node changes.",
  "all diagrams, node pairs and edge values, new or repeated edges",
  "Frame condition over all other edges.",
  a(EM,"EdgeMixins.add_edge")+a("src/compas_cem/elements/trail.py","TrailEdge")+a("src/compas_cem/elements/deviation.py","DeviationEdge"))
p("add_edge between keys that do not exist is rejected without adding an edge",
  "add_edge whose ends are integer keys raises, and leaves the diagram unchanged, whenever one of the two keys is not a node.",
  "all diagrams and all key pairs with a missing key",
  "Error path must be safe for every diagram.",
  a(EM,"EdgeMixins.add_edge")+a(NM,"NodeMixins.node_key"))
p("Supports and loads touch one node only, or nothing",
  "add_support marks exactly the addressed node as support and add_load sets exactly the addressed node's load vector; nothing else changes. If the node does not exist the call raises (ValueError for an unknown location, KeyError for an unknown key) and nothing changes.",
  "all diagrams, addresses and load vectors",
  "Frame condition and error path for all diagrams.",
  a(T,"TopologyDiagram.add_support","TopologyDiagram.add_load")+a("src/compas_cem/loads/node.py","NodeLoad")+a("src/compas_cem/supports/node.py","NodeSupport"))
p("Moving a node re-indexes it",
  "After node_xyz(key, p) on an existing node, node_xyz(key) returns p, lookup at p returns key, no other node moves, and lookup at the node's previous location no longer returns key.",
  "all diagrams, keys and points",
  "Needs every combination of old/new rounded locations.",
  a(NM,"NodeMixins.update_node_xyz","NodeMixins.node_xyz"))
# --- trails
p("build_trails always terminates",
  "For every diagram, whatever its trail edges and supports (cycles, branches, self loops, several supports per component included), build_trails returns or raises an AssertionError after finitely many steps; each trail search visits at most as many nodes as the diagram has.",
  "all reachable diagrams",
  "Non-termination cannot be observed by a finite test and cyclic inputs are unbounded.",
  a(T,"TopologyDiagram.build_trails"))
p("Every trail is a simple chain of trail edges from an origin to a support",
  "After build_trails succeeds, for every stored trail: its key is its first node, the first node is an origin node, consecutive nodes are joined by a trail edge, no node is repeated, its last node was a support when the call started, and the first node has no trail edge leading to a node outside the trail.",
  "all reachable diagrams without self-loop and anti-parallel edges on which build_trails succeeds, with or without auxiliary trails",
  "Structural property of a graph search on arbitrary graphs.",
  a(T,"TopologyDiagram.build_trails","TopologyDiagram.trails"))
p("build_trails raises instead of storing incomplete trails",
  "build_trails() succeeds only if the diagram has a trail edge, still has a support and every node was reached by a trail search; otherwise it raises AssertionError and the stored trails are those from before the call.",
  "all reachable diagrams",
  "Both directions over all topologies.",
  a(T,"TopologyDiagram.build_trails"))
p("build_trails recovers the intended trails of a well-posed topology",
  "If the trail edges form disjoint open chains covering all nodes, each chain having at least two nodes and exactly one support located at one of its ends, then build_trails succeeds, stores exactly these chains ordered from the far end to the support, marks exactly the far ends as new origins, and sets the sequence of the i-th node of each chain to i.",
  "all diagrams whose trail edges form such chains, of any number and length, with arbitrary deviation edges",
  "Functional correctness of the search for every size.",
  a(T,"TopologyDiagram.build_trails","TopologyDiagram.origin_nodes","TopologyDiagram.node_sequence"))
p("Every node belongs to exactly one stored trail",
  "After build_trails succeeds every node of the diagram lies on exactly one stored trail.",
  "all diagrams on which build_trails succeeds",
  "Depends on arbitrary branching of trail edges.",
  a(T,"TopologyDiagram.build_trails","TopologyDiagram.trails"))
p("Rebuilding trails is idempotent",
  "Calling build_trails again on a diagram on which it has just succeeded succeeds again and yields the same trails, sequences and node types.",
  "all diagrams on which build_trails succeeds",
  "State left behind by the first call feeds the second.",
  a(T,"TopologyDiagram.build_trails"))
p("Auxiliary trails complete the diagram and nothing else",
  "If the trail edges form well-posed chains that do not cover all nodes, build_trails(auxiliary_trails=True) succeeds; it adds for every uncovered node n exactly one new support node at position n + auxiliary_trail_length * unit(auxiliary_trail_vector) and one trail edge (n, new) with length auxiliary_trail_length; each becomes a two-node trail reported by auxiliary_trails; existing nodes, edges, loads and chains are kept.",
  "all such diagrams, auxiliary lengths and vectors, and any iteration order of Python sets",
  "Any number of uncovered nodes and any set iteration order.",
  a(T,"TopologyDiagram.build_trails","TopologyDiagram.auxiliary_trails","TopologyDiagram.auxiliary_trail_edges"))
p("Auxiliary trails stay registered when trails are rebuilt",
  "After build_trails(auxiliary_trails=True), calling it again still reports the auxiliary trails that are part of the diagram.",
  "all diagrams with uncovered nodes",
  "History-dependent bookkeeping.",
  a(T,"TopologyDiagram.build_trails","TopologyDiagram.auxiliary_trails"))
p("build_trails changes node types and sequences only",
  "build_trails() never changes node keys, coordinates, loads, edges, edge attributes, or the coordinate lookup table, whether it succeeds or raises; with auxiliary_trails=True it only adds nodes and edges and keeps the existing ones.",
  "all reachable diagrams",
  "Frame condition over all inputs including failures.",
  a(T,"TopologyDiagram.build_trails"))
p("shift_trail renumbers exactly one trail",
  "shift_trail(key, s) on the key of a stored trail sets the sequence of its i-th node to s+i, changes no other attribute or node, and trail_sequences(key) then maps s+i to the i-th node; on a key that is not an origin it raises AssertionError and changes nothing.",
  "all diagrams with trails, all keys and starting sequences",
  "Unbounded trail length and frame condition.",
  a(T,"TopologyDiagram.shift_trail","TopologyDiagram.trail_sequences"))
p("sequences() partitions the nodes",
  "When every node has a sequence number >= 0, sequences() yields number_of_sequences() groups, group k containing exactly the nodes with sequence k, so that every node appears in exactly one group exactly once; number_of_sequences() is one more than the largest sequence number.",
  "all diagrams with assigned non-negative sequences",
  "For every assignment of sequences, gaps included.",
  a(T,"TopologyDiagram.sequences","TopologyDiagram.number_of_sequences","TopologyDiagram.sequence_last"))
p("Direct and indirect deviation edges partition the deviation edges",
  "When every node has a sequence, every deviation edge is exactly one of direct (both ends on the same sequence) or indirect, no trail edge is either, and the counts add up to the number of deviation edges.",
  "all diagrams with assigned sequences",
  "For every graph and sequence assignment.",
  a(T,"TopologyDiagram.is_direct_deviation_edge","TopologyDiagram.is_indirect_deviation_edge","TopologyDiagram.direct_deviation_edges","TopologyDiagram.indirect_deviation_edges"))
p("Connected-edge queries are sound and complete",
  "connected_trail_edges(n) / connected_deviation_edges(n) return, without repetition, exactly the keys of the stored edges of that type incident to n, in their stored orientation, provided no node pair is joined by edges in both directions and there is no self loop.",
  "all reachable diagrams and nodes",
  "Soundness and completeness over arbitrary graphs.",
  a(T,"TopologyDiagram.connected_deviation_edges","TopologyDiagram.connected_trail_edges","TopologyDiagram._connected_edges_predicate"))
p("trails_sequences inverts node sequences",
  "trails_sequences()[key][k] is a node of trail key whose sequence is k, and after build_trails or shift_trail it lists every node of every trail exactly once.",
  "all diagrams with disjoint stored trails",
  "Unbounded number and length of trails.",
  a(T,"TopologyDiagram.trail_sequences","TopologyDiagram.trails_sequences"))
# --- equilibrium
p("Nodal equilibrium",
  "node_equilibrium returns the unique trail vector that balances the node: incoming trail vector reversed + load + forces of the considered deviation edges + returned vector = 0, where each considered deviation edge contributes its force times the unit vector from the node to the other end.",
  "all diagrams, nodes, incoming vectors and positions (real arithmetic)",
  "An algebraic identity over all real inputs.",
  a(F,"node_equilibrium","trail_vector_out","deviation_edges_resultant_vector","incoming_edge_vectors"))
p("Deviation edges act with opposite forces on their two ends",
  "The force vector contributed by a deviation edge at one end is the opposite of the one it contributes at the other end, for tension and compression alike.",
  "all positions and force values",
  "Algebraic identity (Newton's third law) over all reals.",
  a(F,"deviation_edges_resultant_vector","incoming_edge_vectors","vector_two_nodes"))
p("Plane intersection length is exact",
  "trail_length_from_plane_intersection(p, v, plane) returns None exactly when |normal . unit(v)| < tol; otherwise the returned length l is the only number with p + l*unit(v) on the plane.",
  "all points, vectors, planes and tolerances > 0 (real arithmetic)",
  "Identity over all reals including degenerate vectors.",
  a(F,"trail_length_from_plane_intersection")+a(FN,"trail_length_from_plane_intersection_numpy"))
p("Trail edges with a plane end on their plane",
  "In the form diagram returned by static_equilibrium, the far end of every trail edge that has a plane lies on that plane, except where the outgoing force is parallel to the plane within tolerance or the near end already lies on it, in which case the input length is used.",
  "all well-posed topologies with any number of planes",
  "Quantifies over all topologies, planes, loads.",
  a(F,"equilibrium_state","form_update"))
p("Trail edges without a plane keep their assigned signed length",
  "In the form diagram returned by static_equilibrium, every trail edge without a plane that carries a non-zero force has geometric length equal to the absolute value of its assigned length, and its force and length attributes have the sign of the assigned length.",
  "all well-posed topologies, loads and lengths",
  "For all inputs; tests compare a handful of numbers.",
  a(F,"equilibrium_state","form_update"))
p("A plane preserves the tension/compression state of a trail edge",
  "As documented for TrailEdge: if a plane overrides the length of a trail edge, the sign of the length (the combinatorial state) is preserved.",
  "all well-posed topologies with planes",
  "Needs all plane positions relative to the force direction.",
  a("src/compas_cem/elements/trail.py","TrailEdge")+a(F,"equilibrium_state"))
p("Form diagrams of direct topologies are in exact static equilibrium",
  "If all deviation edges are direct and trail lengths are non-zero, then in the form returned by static_equilibrium, at every node the applied load plus the pulls of all incident edges (force times unit vector towards the other end) plus the reaction (at supports) is exactly zero.",
  "all well-posed topologies without indirect deviation edges, all loads, forces, lengths, planes, tmax >= 1 (real arithmetic)",
  "The central physical claim, over all structures.",
  a(F,"static_equilibrium","equilibrium_state","form_update"))
p("Form diagrams are in static equilibrium up to the convergence threshold",
  "For any well-posed topology, in the form returned by static_equilibrium with tmax >= 2 the unbalanced force at a node is at most the sum over its indirect deviation edges of 2*|force|*eta/length; in particular it is zero when the last two iterations coincide.",
  "all well-posed topologies, tmax >= 2, eta (real arithmetic)",
  "Quantitative bound over all structures and iteration counts.",
  a(F,"static_equilibrium","equilibrium_state"))
p("Global force balance",
  "In a form in exact nodal equilibrium, the reaction forces at the supports balance all the applied loads: their sum is zero.",
  "all well-posed topologies without indirect deviation edges, and all iterations that have come to rest",
  "Sum over structures of any size.",
  a(F,"static_equilibrium"))
p("Global moment balance",
  "In a form in exact nodal equilibrium, the moments of the reactions at the supports balance the moments of all the applied loads about every point.",
  "as for force balance, and every reference point",
  "Sum over structures of any size.",
  a(F,"static_equilibrium"))
p("Direct topologies need one iteration",
  "Without indirect deviation edges the form does not depend on tmax >= 1 and eta > 0, and static_equilibrium never raises for lack of convergence.",
  "all well-posed topologies without indirect deviation edges, all tmax and eta",
  "Independence of parameters over unbounded ranges.",
  a(F,"equilibrium_state"))
p("Convergence contract",
  "If static_equilibrium returns with tmax >= 2, the sum of node displacements in its last iteration is at most eta; if it never gets within eta in tmax iterations it raises ValueError.",
  "all topologies, tmax >= 2 and eta",
  "Iteration count is unbounded.",
  a(F,"equilibrium_state")+a(FN,"equilibrium_state_numpy"))
p("Form finding leaves the topology diagram and all input quantities intact",
  "static_equilibrium does not modify the topology diagram; the form has the same nodes, edges, supports, loads and deviation forces, and its origin nodes are where they were.",
  "all topologies",
  "Frame condition over all inputs.",
  a(F,"static_equilibrium","form_update")+a("src/compas_cem/diagrams/form.py","FormDiagram.from_topology_diagram"))
p("kmax larger than the last sequence is ignored",
  "static_equilibrium with kmax >= the last sequence returns the same form as with kmax=None; a negative kmax raises AssertionError.",
  "all well-posed topologies and all such kmax",
  "Equality of two runs for all inputs.",
  a(F,"equilibrium_state"))
p("kmax stops the computation at sequence kmax",
  "As documented, kmax is the last sequence equilibrium is calculated at: nodes on sequences beyond kmax keep their topology positions.",
  "all well-posed topologies and kmax",
  "Depends on all trail lengths and kmax.",
  a(F,"static_equilibrium","equilibrium_state"))
p("Edge lengths of the form agree with its geometry",
  "After static_equilibrium the length attribute of every edge has absolute value equal to the distance between its two end nodes and is negative exactly if its force is negative.",
  "all topologies on which form finding succeeds",
  "Every edge of every structure.",
  a(F,"form_update")+a(FN,"form_update"))
p("The numpy backend computes the same equilibrium",
  "equilibrium_state_numpy performs, iteration by iteration, the same updates as equilibrium_state as long as no deviation edge has zero length and no trail vector vanishes; on direct topologies both return the same positions, forces and reactions.",
  "all such topologies (real arithmetic)",
  "Equivalence of two programs on all inputs.",
  a(FN,"equilibrium_state_numpy","form_update")+a(F,"equilibrium_state"))
p("Form finding commutes with translation",
  "Translating all node coordinates and planes of a topology by a vector translates the resulting form by that vector and leaves forces, lengths and reactions unchanged.",
  "all topologies, translations, tmax, eta, kmax (real arithmetic)",
  "Metamorphic relation over all structures.",
  a(F,"static_equilibrium"))
p("Form finding is homogeneous in the forces",
  "Scaling all loads and deviation forces by c > 0 leaves the geometry unchanged and scales trail forces and reactions by c.",
  "all topologies with zero initial reactions, c > 0 (real arithmetic)",
  "Metamorphic relation over all structures.",
  a(F,"static_equilibrium"))
# --- optimization
p("Parameter bounds enclose the start value",
  "bound_low(topology) <= start_value(topology) <= bound_up(topology) for every parameter, whatever the signs of the given bounds; a bound of None means unbounded.",
  "all parameters, bounds and diagrams",
  "All real bounds and start values.",
  a(O+"parameters/parameter.py","Parameter.bound_low","Parameter.bound_up")+a(OP,"Optimizer.optimization_bounds"))
p("Optimization variables round-trip through the diagram",
  "After the optimizer writes a vector of variables into the diagram, reading the variables back yields that vector when no two parameters address the same quantity, and nothing but the addressed quantities changes.",
  "all sets of distinct parameters, vectors and diagrams",
  "Unbounded number of parameters, frame condition.",
  a(OP,"Optimizer._update_parameters","Optimizer.optimization_parameters"))
p("The objective is a function of the variables only",
  "The objective value at x does not depend on which points were evaluated before on the same diagram.",
  "all evaluation histories, all parameter/constraint sets and diagrams",
  "All histories of a mutating objective.",
  a(OP,"Optimizer._optimize_form","Optimizer._update_parameters")+a(O+"objective_func.py","objective_function_numpy"))
p("Finite-difference gradient",
  "grad_finite_differences returns (f(x+h e_i)-f(x))/h in every component i, leaves x unchanged, and is exact for affine objectives.",
  "all objectives, dimensions, points and h != 0",
  "All dimensions and functions.",
  a(O+"grad.py","grad_finite_differences"))
p("Penalties are non-negative and vanish exactly on satisfied constraints",
  "With positive weights the total penalty is >= 0, is the sum of the weighted squared deviations, and is 0 if and only if every constraint is met exactly.",
  "all constraint sets and equilibrium states",
  "Unbounded constraint sets, all reals.",
  a(OP,"Optimizer._calculate_penalty")+a(O+"constraints/constraint.py","VectorConstraint.penalty","FloatConstraint.penalty"))
p("Line and plane constraints measure the distance to the target",
  "The penalty of a line (plane) constraint is weight times the squared distance from the node to the nearest point of the infinite line (plane): no point of the target is nearer.",
  "all points, non-degenerate lines and planes",
  "Optimality over a continuum of points.",
  a(O+"constraints/line.py","LineConstraint.target")+a(O+"constraints/plane.py","PlaneConstraint.target"))
p("Polyline constraint pulls to the nearest point of the polyline",
  "The target of a polyline constraint is a point of the polyline and no point of any of its segments is nearer to the node.",
  "all points and polylines with any number of segments",
  "Optimality over a continuum and unbounded lists.",
  a(O+"constraints/polyline.py","PolylineConstraint._closest_point_on_polyline"))
p("Direction constraint is met exactly by parallel edges",
  "The penalty of an edge direction constraint with positive weight is zero if and only if the edge is parallel to the target vector (in either sense), and it does not depend on the magnitude or sense of the target vector.",
  "all non-zero edges and target vectors",
  "Equivalence over all reals.",
  a(O+"constraints/direction.py","EdgeDirectionConstraint.target","EdgeDirectionConstraint.reference"))
p("Removing a parameter keeps the optimizer usable",
  "After any history of add_parameter/remove_parameter calls, the optimizer still produces one variable per remaining parameter.",
  "all add/remove histories",
  "History dependent.",
  a(OP,"Optimizer.add_parameter","Optimizer.remove_parameter","Optimizer.optimization_parameters"))
p("solve rejects ill-posed problems before touching the diagram",
  "Optimizer.solve raises ValueError, without modifying the diagram, when there are no parameters, no constraints or the gradient method is unknown, and KeyError for an unknown algorithm name.",
  "all optimizers, diagrams and names",
  "All inputs on error paths.",
  a(OP,"Optimizer.solve","Optimizer.check_optimization_sanity")+a(O+"nlopt.py","nlopt_algorithm"))
p("The form returned by solve is the form of the optimal variables",
  "The form returned by Optimizer.solve is the equilibrium form of the diagram at the reported optimum x_opt, computed with the caller's tmax and eta.",
  "all problems and all behaviours of the external solver",
  "The external solver may evaluate in any order.",
  a(OP,"Optimizer.solve"))
p("Constraints and parameters survive serialization",
  "Reading back the data of a node or edge parameter, or of a constraint, yields the same key, bounds, attribute, weight and target.",
  "all parameters and constraints with integer or integer-pair keys",
  "Round trip over all keys, including negative and large integers.",
  a(O+"parameters/edge.py","EdgeParameter.data")+a(O+"parameters/node.py","NodeParameter.data")+a(O+"constraints/constraint.py","Constraint.data","FloatConstraint.data"))
# --- others
p("Polyedges are split into trails and deviation edges without loss",
  "from_dualquadmesh classifies every edge of every polyedge exactly once: all deviation (no supported end), all trail (one supported end), or two trail halves whose lengths differ by at most one separated by exactly one deviation edge (both ends supported, second vertex not supported). A polyedge whose two ends and second vertex are supported contributes no edge. The diagram has the vertices of the mesh, the requested supports, and these edges with the requested lengths and forces.",
  "all polyedges of length >= 2 and support sets",
  "All list lengths.",
  a("src/compas_cem/diagrams/topology/mesh_mixins.py","MeshMixins.from_dualquadmesh"))
p("Edge widths interpolate force magnitudes",
  "With a (low, high) width range every drawn edge gets a width between low and high, in proportion to the magnitude of its force: low for the smallest and high for the largest magnitude. A number gives that width to all edges and a dictionary is used as it is.",
  "all force distributions and ranges low <= high",
  "All lists of reals.",
  a("src/compas_cem/viewers/diagramobject.py","DiagramObject.edge_width")+a("src/compas_cem/plotters/formartist.py","FormArtist.edge_width"))
p("A form diagram can be searched by its own coordinates",
  "In a form returned by static_equilibrium, looking up the coordinates of a node returns a node located there.",
  "all topologies",
  "Depends on how far nodes moved.",
  a(F,"form_update")+a(NM,"NodeMixins.node_key")+["src/compas_cem/ghpython/components/CompasCem_SearchNodeKey/code.py::SearchNodeKeyComponent"])
p("Supports stay supports",
  "After build_trails() succeeds every node that was a support is still a support and no other node has become one.",
  "all diagrams on which build_trails succeeds",
  "Depends on the order in which the search meets the supports, for every graph.",
  a(T,"TopologyDiagram.build_trails"))
p("A failing add_edge changes nothing",
  "If add_edge raises, the diagram is as before the call.",
  "all diagrams and all combinations of ends given by key or by coordinates",
  "The state after a failure, for every diagram and every pair of ends.",
  a("src/compas_cem/diagrams/mixins/edge_mixins.py","EdgeMixins.add_edge"))
p("A built topology is ready for form finding",
  "If the trail edges form disjoint open chains ending in the supports, a successful build_trails (plain when the chains cover all nodes, auxiliary otherwise) leaves a topology on which static_equilibrium cannot fail other than by lack of convergence; setting coordinates, loads, lengths or forces, or shifting a trail to a non-negative sequence, keeps it so.",
  "all well-posed topologies, all orders of set iteration, all later calls",
  "Every topology and every history of calls.",
  a(T,"TopologyDiagram.build_trails","TopologyDiagram.shift_trail")+a(F,"static_equilibrium"))
p("Form finding commutes with rotations and reflections",
  "Applying a rotation or a reflection about the origin to all coordinates, planes and loads of a topology applies it to the resulting form and its reactions; forces and lengths are unchanged.",
  "all topologies, all linear isometries of space, all settings",
  "All reals.",
  a(F,"static_equilibrium"))
p("Form finding is homogeneous in the geometry",
  "Scaling all coordinates, planes and trail lengths of a topology, and the threshold eta, by s > 0 scales the coordinates and lengths of the form by s and leaves forces and reactions unchanged.",
  "all topologies, all s > 0, all settings",
  "All reals.",
  a(F,"static_equilibrium"))
p("Planar topologies have planar forms",
  "If all coordinates, loads and planes of a topology lie in the plane z = 0, so do all coordinates and reactions of the form.",
  "all topologies in a plane, all settings",
  "All reals and all topologies.",
  a(F,"static_equilibrium"))
p("A form that is returned has numbers for coordinates",
  "When coordinates, loads, lengths and forces of a topology are finite floats, static_equilibrium with tmax >= 2 does not return a form with a coordinate that is not a number.",
  "all topologies over binary64 floats, all settings",
  "Overflow can occur anywhere in the structure.",
  a(F,"static_equilibrium","equilibrium_state"))
p("Only the coordinates of the origins matter",
  "Two topologies that differ only in the coordinates of nodes that are not the first of a trail have the same outcome of static_equilibrium: the same error, or the same form.",
  "all pairs of such topologies, all tmax and eta, kmax None",
  "All topologies and all values of the ignored coordinates.",
  a(F,"static_equilibrium","equilibrium_state"))
p("Listings and predicates of nodes and edges agree",
  "support_nodes and origin_nodes yield exactly the nodes for which is_node_support and is_node_origin hold, each once; loaded_nodes(min_force) exactly the nodes with a load longer than min_force; is_edge_supported holds when one end is a support; every edge is a trail edge or a deviation edge and not both; auxiliary_trail_edges yields exactly the registered auxiliary trails, which are all edges of the diagram.",
  "all diagrams built by any history of calls, all nodes, edges and thresholds",
  "Every history of calls, including failed ones and rebuilt trails.",
  a(D,"Diagram.support_nodes","Diagram.loaded_nodes","Diagram.is_edge_supported")+a(T,"TopologyDiagram.origin_nodes","TopologyDiagram.trail_edges","TopologyDiagram.deviation_edges","TopologyDiagram.auxiliary_trail_edges"))
p("The optimizer holds what was added and not removed",
  "After any sequence of add_parameter, remove_parameter, add_constraint and remove_constraint calls, the parameters and constraints of the optimizer are exactly those added and not removed since, each under its number in the order of addition. Only removing what is not there raises (KeyError), and changes nothing.",
  "all sequences of calls, with exceptions caught",
  "Every history of calls.",
  a("src/compas_cem/optimization/optimizer.py","Optimizer.add_parameter","Optimizer.remove_parameter","Optimizer.add_constraint","Optimizer.remove_constraint"))
p("The solver gets the problem the user posed, and the optimizer reports its answer",
  "solve hands NLopt the chosen algorithm, one variable per parameter starting at its value in the topology, with its bounds, and the stopping criteria iters, eps and kappa. All six documented algorithms are accepted. Afterwards x_opt, penalty, evals, status, gradient and gradient_norm are those of NLopt's answer, where the gradient is that of the objective at x_opt.",
  "all optimizers, topologies, settings and all behaviours of the external solver",
  "The solver may evaluate the objective anywhere and as often as it likes, and end in any way.",
  a("src/compas_cem/optimization/optimizer.py","Optimizer.solve")+a("src/compas_cem/optimization/nlopt.py","nlopt_solver","nlopt_algorithms","nlopt_status"))
V="src/compas_cem/viewers/diagramobject.py"; VF="src/compas_cem/viewers/formobject.py"; VT="src/compas_cem/viewers/topologyobject.py"
PF="src/compas_cem/plotters/formartist.py"; PT="src/compas_cem/plotters/topologyartist.py"; GH="src/compas_cem/ghpython/artists.py"
p("Arrows show the loads and the reactions",
  "The arrows drawn are those of the nodes asked for whose load or reaction is not below the tolerance, in order. Each is the force times the scale. It starts at its node, after the gap, or, for a reaction of a node whose most loaded edge is in compression, ends there. So in a form in equilibrium the arrow of the reaction of an unloaded support with one edge is drawn outside the structure.",
  "all diagrams and forms, all selections of nodes, scales >= 0, gaps and tolerances; viewer, plotter and Grasshopper",
  "All reals and all graphs.",
  a(V,"DiagramObject.draw_loads","DiagramObject.draw_residuals")+a(PF,"FormArtist.draw_loads","FormArtist.draw_reactions")+a(GH,"DiagramArtist.draw_loads","FormArtist.draw_reactions"))
p("Colors show what edges and nodes are",
  "Edges of a form are drawn in one color for tension, one for compression and one for no force, the same in the viewer and the plotter. Edges of a topology are drawn by their kind (auxiliary trail, trail, direct or indirect deviation edge), or by the sign of their length or force. Supports, origins and other nodes have different colors. Trail edges are solid, deviation edges dashed; crosses mark the loaded nodes. The groups drawn make up the edges.",
  "all diagrams and forms, all selections of nodes and edges",
  "Every history of calls and all reals.",
  a(VF,"FormDiagramObject.edge_color","FormDiagramObject.node_color","FormDiagramObject.edges_by_type")+a(VT,"TopologyDiagramObject.edge_color","TopologyDiagramObject.node_color","TopologyDiagramObject.edges_by_type")+a(PF,"FormArtist.draw_edges","FormArtist.draw_nodes")+a(PT,"TopologyArtist.draw_edges","TopologyArtist.draw_nodes","TopologyArtist.draw_loads"))
p("Grasshopper draws what is selected",
  "Given a selection of nodes or edges, the Grasshopper artists draw exactly the selected ones of the kind asked for (supports, origins, trail or deviation edges), in order and where they are; without a selection, all of that kind. Trails are drawn through their nodes in order.",
  "all diagrams and all selections",
  "All selections of all diagrams.",
  a(GH,"DiagramArtist.draw_nodes","DiagramArtist.draw_edges","DiagramArtist.draw_nodes_support","TopologyArtist.draw_nodes_origin","TopologyArtist.draw_edges_trail","TopologyArtist.draw_edges_deviation","TopologyArtist.draw_trails"))
p("Nodes and edges are shown and hidden independently",
  "Assigning show_nodes or show_edges of a viewer object changes the visibility of nodes or edges only, and the value assigned can be read back.",
  "all sequences of assignments",
  "Every history of assignments.",
  a(V,"DiagramObject.show_nodes","DiagramObject.show_edges"))
EQ="src/compas_cem/equilibrium/force.py"
p("Names, orders and directions do not matter",
  "If two topologies differ only in the names of the nodes, the order in which nodes, edges and trails were added and the direction in which edges were given, their forms are the same up to these differences: every node is in the same place and every edge has the same force and length.",
  "all pairs of topologies that correspond under a renaming, in equilibrium over the reals, all numbers of passes and thresholds",
  "All graphs, all renamings and all orders.",
  a(EQ,"static_equilibrium","equilibrium_state")+a(T,"TopologyDiagram.build_trails"))
p("What comes later, or elsewhere, has no influence",
  "Where a node of the form is depends only on its origin and what comes before it on its trail, and on the trails it is tied to by direct deviation edges up to there. A load, a deviation force or a trail length on sequence k or later does not move nodes up to sequence k. A part of a structure has the same form, forces and reactions alone as beside other parts it is not connected to.",
  "all topologies ready for form finding, all changes downstream, all larger structures",
  "All graphs and all changes.",
  a(EQ,"static_equilibrium","equilibrium_state","deviation_edges_resultant_vector"))
p("More passes or a looser threshold do not lose a form",
  "A form found with tmax >= 2 passes is also found, and is the same, with a larger tmax. A form found with a threshold eta is also found with a larger one.",
  "all topologies, with direct and indirect deviation edges, all tmax, eta and kmax",
  "The passes form a sequence without bound that may grow again.",
  a(EQ,"static_equilibrium","equilibrium_state"))
def c(*names): return ["src/compas_cem/ghpython/components/CompasCem_%s/code.py" % n for n in names]
p("The assembled topology is the one drawn",
  "The Grasshopper component that assembles a topology returns the diagram whose nodes are the ends of the given lines (points equal after rounding being one node), whose edges are the lines, with the loads and the supports at the points given and nowhere else. Inputs that are not connected are skipped. Trails are traced if trail edges and supports are given, or deviation edges and auxiliary trails. If the trail edges form chains that end in supports, the result is ready for form finding. A load or a support that is not at the end of a line is rejected.",
  "all lists of trail edges, deviation edges, loads and supports, all iteration orders of sets",
  "All drawings, with any number of lines and coinciding points.",
  c("TopologyDiagram","EdgeTrail","EdgeDeviation","NodeLoad","NodeSupport"))
p("Moving origins and shifting trails change nothing else",
  "Moving the listed origins puts each at its point, the last point being repeated, and leaves the other nodes, the edges, the loads, the supports and the trails; the origins are then found at their new points. Shifting trails changes the sequences of the trails listed, by as much as asked, and of no other. The topology stays ready for form finding. The diagram given is not changed.",
  "all topologies and all lists of origins, points and sequences",
  "All topologies and lists of any length.",
  c("OriginNodesMove","TrailsShift"))
p("Searching finds the node or the edge drawn",
  "Searching for a node by a point returns the key of the node at this point, and fails only if there is none. Searching for an edge by a line returns the key of the edge between its ends, in whichever direction the line is drawn, and fails if there is none.",
  "all topologies assembled from lines, before and after tracing their trails, all points and lines",
  "All points and all drawings.",
  c("SearchNodeKey","SearchEdgeKey"))
p("Inputs given are used, the others have defaults",
  "The values given to the form finding, constrained form finding and constraint components are the ones that are used; an input that is not connected has its default value. Constraints and parameters that are not connected are skipped.",
  "all combinations of inputs, all values",
  "All values of all combinations of inputs.",
  c("FormFinding","ConstrainedFormFinding","ConstraintNodePoint","ConstraintNodeLine","ConstraintNodePlane","ConstraintNodePolyline","ConstraintReactionForce","ConstraintTrailEdgeForce","ConstraintDeviationEdgeLength","ConstraintEdgeDirection"))
p("Counters count",
  "number_of_support_nodes, number_of_loaded_nodes, number_of_trails, number_of_auxiliary_trails, number_of_trail_edges, number_of_deviation_edges, number_of_direct_deviation_edges and number_of_indirect_deviation_edges are the numbers of the things they name. Trail and deviation edges make up the edges, direct and indirect ones the deviation edges. If the topology is ready for form finding, there are as many trails as supports, and as many trail edges and trails as nodes. node_exists tells whether there is such a node.",
  "all reachable diagrams",
  "Every history of calls.",
  a(D,"Diagram.number_of_support_nodes","Diagram.number_of_loaded_nodes")+a(T,"TopologyDiagram.number_of_trails","TopologyDiagram.number_of_auxiliary_trails","TopologyDiagram.number_of_trail_edges","TopologyDiagram.number_of_deviation_edges","TopologyDiagram.number_of_direct_deviation_edges","TopologyDiagram.number_of_indirect_deviation_edges")+a(NM,"NodeMixins.node_exists"))
p("Results are those of the form",
  "The results components return the lengths and forces of the edges asked for, or of all edges, and the reaction forces at the nodes asked for, or at all supports, in order.",
  "all forms and all selections",
  "All forms and selections.",
  c("ResultsEdges","ResultsSupportNodes"))
p("The parts of a diagram fit together",
  "Every topology that the assembling component returns can be disassembled: into its nodes, its origins, its supports, its edges, its trail edges and deviation edges, which make up the edges, its sequences, each with the nodes of this sequence and together with all nodes, its trails, which end in supports and follow trail edges, and its auxiliary trails. If the trail edges that were drawn form chains, the trails are these chains. A form is disassembled into its nodes, supports and edges.",
  "all topologies that were assembled, all forms",
  "All drawings and all histories.",
  c("DisassembleTopology","DisassembleForm","TopologyDiagram"))
p("The drawing components draw what is selected",
  "The components that draw a form or a topology draw the nodes and the edges that are selected, or all; of these the origins, the supports, the trail edges and the deviation edges; the trails; and the arrows of the loads and the reactions at these nodes, with the scale and from the magnitude that are given, or 1 and 1e-3.",
  "all topologies and forms, all selections, scales and magnitudes",
  "All diagrams and selections.",
  c("ArtistForm","ArtistTopology"))
p("Constraint and parameter components ask for what they are given",
  "A constraint component returns a constraint that is worth the weight given (if not zero), or one, times the square of: the distance of the node from the point, line, plane (with a normal) or polyline given; the distance of the reaction from the vector given; the difference of the force in the trail edge or of the length of the deviation edge from the number given; the distance of the direction of the edge from that of the vector, in either sense. A parameter component returns a parameter for the coordinate, load component, force or length it names, that starts at its value in the topology and has the bounds given around it, or none. Without a node, an edge or a target there is no constraint, and without a node or an edge no parameter.",
  "all nodes, edges, targets, weights and bounds, all states",
  "All geometries of targets and all states of equilibrium.",
  c("ConstraintNodePoint","ConstraintNodeLine","ConstraintNodePlane","ConstraintNodePolyline","ConstraintReactionForce","ConstraintTrailEdgeForce","ConstraintDeviationEdgeLength","ConstraintEdgeDirection","ParameterNodeOriginX","ParameterNodeOriginY","ParameterNodeOriginZ","ParameterNodeLoadX","ParameterNodeLoadY","ParameterNodeLoadZ","ParameterDeviationEdge","ParameterTrailEdge"))
p("A diagram survives a file",
  "A topology diagram written to a JSON file and read back is the same diagram: it has the same nodes, edges, supports, loads, lookup table, trails and auxiliary trails, it answers every later call in the same way (also calls that ask for a trail by its key), and the forms found with it are the same. A form diagram comes back as it was.",
  "all topology and form diagrams, all later histories of calls, all settings of form finding",
  "All diagrams with all keys, and all histories before and after the file.",
  c("JSONExportDiagram","JSONImportForm","JSONImportTopology")+a(T,"TopologyDiagram.trail","TopologyDiagram.shift_trail","TopologyDiagram.trails_sequences","TopologyDiagram.build_trails"))
p("Optimized quantities stay within their bounds",
  "However an optimizer is used, with a solver that evaluates and returns only points within the bounds it is given, every quantity that is optimized stays within the bounds of its parameters around the value it had before, in the diagram and in the optimum that is reported, whatever the run returns or raises; everything else about the diagram stays what it was.",
  "all diagrams, parameters, constraints, settings, solvers that respect bounds, numbers of runs",
  "All solvers and everything they may evaluate, including runs that raise.",
  a(OP,"Optimizer.solve","Optimizer.optimization_bounds","Optimizer._update_parameters")+a(O+"parameters/parameter.py","Parameter.bound_low","Parameter.bound_up")+a(O+"nlopt.py","nlopt_solver"))
p("Symmetric structures have symmetric forms",
  "If a rotation or mirroring with a translation takes the structure to itself - nodes, trails, edges with their kinds, lengths, forces and planes, loads, supports and sequences -, it takes the form that static equilibrium finds to itself in the same way: positions, reactions, forces and lengths. Nodes on an axis or plane of symmetry stay on it.",
  "all topologies that are ready for form finding, all motions and permutations of the nodes, all settings of form finding",
  "All structures and all symmetries.",
  a(EQ,"static_equilibrium","equilibrium_state","node_equilibrium","trail_vector_out"))
p("Warnings of form finding tell what happened",
  "What is printed, and whether a callback is given, makes no difference to the form. Warnings name trail edges that have a plane. If there is no warning for a trail edge, its force has the sign of the length it was given, and it ends on its plane. If there is one, it is about the form that is returned: the force of the edge has the other sign, or the edge is parallel to its plane or starts on it, and has the length it was given.",
  "all topologies that are ready for form finding, all settings, all trail edges",
  "All structures, and all passes of the iteration.",
  a(EQ,"static_equilibrium","equilibrium_state","trail_length_from_plane_intersection"))
p("The callback runs once per iteration",
  "The function given as callback is called once in every iteration of form finding (and never if none is given), and the number of iterations that is printed at the end is the number of iterations made.",
  "all topologies that are ready for form finding, all settings, forms found and not found",
  "All structures and numbers of iterations.",
  a(EQ,"static_equilibrium","equilibrium_state"))
p("A penalty of zero means that the form meets the constraints",
  "With positive weights the value of the objective is zero exactly when the form found with the variables meets all constraints - nodes are on their targets, edges have the lengths, forces and directions, supports the reactions asked for -, and a small value bounds how far it is from each. In particular, if solve reports a penalty of zero, the form it returns meets all constraints.",
  "all topologies, constraints of all kinds, parameters, variables and solvers",
  "All geometries, goals and everything a solver may evaluate.",
  a(OP,"Optimizer.solve","Optimizer._optimize_form","Optimizer._calculate_penalty")+a(F,"static_equilibrium")+a(FN,"static_equilibrium_numpy"))
p("A topology stays sound when it is optimized",
  "However solving ends, also with an exception, the topology is one that could have been made by setting the coordinates, loads, forces and lengths of the parameters by hand: it is still a diagram built by calls of the API, it is ready for form finding if it was, and everything that holds for such diagrams holds for it.",
  "all topologies, parameters, constraints, settings and solvers, runs that succeed and runs that raise",
  "All runs of a solver, including those that stop in the middle of an update.",
  a(OP,"Optimizer.solve","Optimizer._update_parameters","Optimizer._optimize_form"))
p("Solving in another process gives what solving here gives",
  "Calling solve_proxy through a proxy, as the Grasshopper component does, gives the same objective, norm of the gradient, number of evaluations, status and form as calling it in the same process, and a topology diagram that has the same contents and answers in the same way; if solving raises, so does the call through the proxy.",
  "all topologies, constraints and parameters a user can make, all settings and solvers",
  "All diagrams and everything a solver may evaluate; what comes back is a new object.",
  a(O+"proxy.py","solve_proxy")+c("ConstrainedFormFinding")+a(O+"constraints/constraint.py","Constraint.data","FloatConstraint.data")+a(O+"parameters/edge.py","EdgeParameter.data")+a(O+"parameters/node.py","NodeParameter.data")+a(T,"TopologyDiagram.trails","TopologyDiagram.trail"))
p("The form is the only structure that the topology asks for",
  "Without indirect deviation edges, the form is in static equilibrium, its origins are where the topology has them, its deviation edges have the given forces and its trail edges that carry a force have the given length and state or end on the given plane; and any structure that is so and whose trail edges all carry forces, however it was found, has the positions, forces and reactions of the form.",
  "all topologies that are ready for form finding and have no indirect deviation edges, all settings, all structures on the same nodes and edges",
  "All structures that might compete with the form, over the real numbers.",
  a(F,"static_equilibrium","equilibrium_state","node_equilibrium","trail_vector_out"))
p("A form in equilibrium is final",
  "If the form returned is in static equilibrium, then form finding with more iterations and a threshold that is not larger returns the very same form, whatever indirect deviation edges there are; and a form that one more iteration with a threshold of zero leaves as it is, is in static equilibrium.",
  "all topologies that are ready for form finding, all settings",
  "All structures and all numbers of iterations.",
  a(F,"static_equilibrium","equilibrium_state"))
p("Labels say what was asked for",
  "A text asked for by a tag is drawn for each node or edge that is shown, at the node or half way along the edge, and tells the thing named by the tag about that node or edge: its key, its coordinates, its type, its sequence, its force, its length or its combinatorial state. A dictionary of texts is used as it is given. If nothing is asked for, keys are shown. Viewer and plotter show the same numbers for a form, but for the sign of the force.",
  "all diagrams, all selections of nodes and edges, all tags and dictionaries, viewer and plotters",
  "All diagrams; the drawing libraries are not there when tests run without a window.",
  a("src/compas_cem/plotters/topologyartist.py","TopologyArtist._node_textlabel","TopologyArtist._edge_textlabel")+a("src/compas_cem/plotters/formartist.py","FormArtist._node_textlabel","FormArtist._edge_textlabel")+a("src/compas_cem/viewers/diagramobject.py","DiagramObject.node_text","DiagramObject.edge_text","DiagramObject.draw_nodetext","DiagramObject.draw_edgetext"))
p("Parts of a form are in balance",
  "If the nodes of a part of a form are in equilibrium, loads and reactions of the part and the forces of the edges that are cut to isolate it add up to zero, and so do their moments about any point (method of sections). A part that is not tied to the rest is in balance by itself; an edge that alone ties a part to the rest carries the resultant of its loads and reactions, which acts along that edge. Without indirect deviation edges, the trail edges from one sequence to the next carry all that acts above.",
  "all forms, all sets of nodes, all points",
  "All structures and all ways of cutting them.",
  a(F,"static_equilibrium","equilibrium_state","node_equilibrium"))
p("Virtual work and Maxwell's theorem",
  "A form is in static equilibrium exactly if for any displacements of its nodes the work of loads and reactions is the work of the edge forces on the elongations of the edges. So in equilibrium the sum of force times length over all edges, negative for compression, is the sum of the products of loads and reactions with the positions where they act, and loads and reactions do no work on a displacement as a rigid body.",
  "all diagrams, all displacements",
  "All structures and infinitely many displacements.",
  a(F,"static_equilibrium","equilibrium_state"))
p("Settings of a viewer object are used as they were given",
  "The size of nodes, the scales and the tolerances of loads and reactions are what was assigned to them last, or what was given when the object was made, or the default if nothing was given, and reading or drawing does not change them; assigning None leaves them as they are.",
  "all objects, all settings and numbers, all sequences of assignments, readings and drawings",
  "All histories of an object; the drawing library is not there when tests run without a window.",
  a(V,"DiagramObject.node_size","DiagramObject.load_scale","DiagramObject.load_tol","DiagramObject.residual_scale","DiagramObject.residual_tol"))
p("An object added to the viewer shows the diagram",
  "Making an object for a diagram succeeds and draws every edge that is selected, once, as a cylinder from one of its nodes to the other with the width it was given and the color of its kind or state, and one arrow for each load and reaction above the tolerance; what is switched off is not drawn.",
  "all diagrams and forms, all selections of nodes and edges, all widths, scales and tolerances",
  "All geometries; the drawing library is not there when tests run without a window.",
  a(V,"DiagramObject.__init__","DiagramObject.draw_edges","DiagramObject._edge_meshes","DiagramObject.draw_loads","DiagramObject.draw_residuals")+a(VF,"FormDiagramObject")+a(VT,"TopologyDiagramObject"))
p("A viewer object shows what was assigned to it last",
  "After nodes, edges or another diagram are assigned to an object, drawings show the nodes and edges assigned last, in the places that they have in the diagram assigned last.",
  "all diagrams, all sequences of assignments, readings and drawings",
  "All histories of an object.",
  a(V,"DiagramObject.diagram","DiagramObject.nodes","DiagramObject.edges","DiagramObject.node_xyz","DiagramObject.draw_nodes","DiagramObject.draw_edges")+a(VF,"FormDiagramObject.edges_by_type")+a(VT,"TopologyDiagramObject.edges_by_type"))
p("Small changes of the input make small changes of the form, and smooth ones smooth ones",
  "When the topology has no indirect deviation edges and no trail edge of length zero, and in its form every trail edge carries a force, no deviation edge has its ends in one place and no trail edge meets its plane exactly at the tolerance or starts on it, the positions, forces and reactions of the form depend continuously on the origins, loads, deviation forces, trail lengths and planes, and have derivatives wherever these have. The array program finds the form of the reference program for every input near enough, and so is continuous as well. At an unloaded trail edge, or at the tolerance, the form jumps.",
  "all topologies and forms with those conditions, all neighbouring topologies, all families of topologies with one parameter",
  "Tests compare forms of a few inputs; continuity and derivatives are about all inputs nearby, and optimization by gradients relies on them.",
  a(EQ,"static_equilibrium","equilibrium_state","node_equilibrium","trail_vector_out","trail_length_from_plane_intersection","deviation_edges_resultant_vector"))
p("The finite-difference gradient tends to the derivatives of the penalty",
  "As the step shrinks, the gradient that the optimizer computes by finite differences at a point tends to the partial derivatives of the penalty at that point, whatever was evaluated before, when the topology has no indirect deviation edges, the form at that point is sound (all trail edges carry forces, no deviation edge has its ends in one place), no trail edge meets its plane at the tolerance, and no constraint is at a kink (an edge whose ends are in one place or that is square to the direction asked for; a polyline with two points equally near to its node). At the tolerance, the gradient may grow without bound instead; between two equally near points of a polyline the differences with positive and negative steps stay apart.",
  "all optimizers with any parameters and any constraints, all topologies and points with those conditions, all small steps",
  "Tests compare gradients with a few numbers at one step; that the numbers approach the derivatives is about all small steps, all structures and all points.",
  a("src/compas_cem/optimization/grad.py","grad_finite_differences")+a(OP,"Optimizer._optimize_form","Optimizer._update_parameters","Optimizer._calculate_penalty")+a(EQ,"static_equilibrium"))
p("What is printed is true",
  "Whether the optimizer is asked to print makes no difference for what it does. The numbers of parameters, constraints and evaluations, the final value, the norm of the gradient and the status that a run prints are those the optimizer holds afterwards; a run that is not asked to print tells only that it failed or stopped on roundoff errors, and the warnings of form finding. The text of an optimizer shows how its last run ended, the text of an edge its magnitude and state, the text of a diagram how many nodes, edges and trails it has.",
  "all optimizers and topologies, all solvers and whatever way a run ends, all edges and all diagrams",
  "All solvers and all ways to end a run, also exceptions; tests do not read what is printed.",
  a(OP,"Optimizer.solve","Optimizer.__repr__")+a("src/compas_cem/elements/trail.py","TrailEdge.__repr__")+a("src/compas_cem/elements/deviation.py","DeviationEdge.__repr__")+a(D,"Diagram.__repr__")+a(T,"TopologyDiagram.__repr__"))
p("A node is found where the optimizer has moved it",
  "After solving, a node that was found by its coordinates before is found by its coordinates; locations it has left do not find it any more; an edge drawn from its location starts at it.",
  "all topologies, parameters (of origins and of other things), constraints, settings and solvers, runs that succeed and runs that raise, all locations",
  "All runs of a solver on all topologies; tests never search a topology after optimizing it.",
  a(OP,"Optimizer._update_parameters","Optimizer.solve")+a("src/compas_cem/diagrams/mixins/node_mixins.py","NodeMixins.node_key"))
with open("/verif/properties.jsonl","w") as f:
    for q in P: f.write(json.dumps(q)+"\n")
print(len(P))
