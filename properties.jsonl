{"id": "C01", "title": "Diagram integrity under every call history", "statement": "After any sequence of public mutating calls on a TopologyDiagram (add_node, add_edge, add_support, add_load, node_xyz, setting an attribute, tol, auxiliary settings, build_trails, shift_trail), including calls that raised, the diagram is a well-formed graph: node keys are unique, every edge joins two existing nodes, `neighbors` is symmetric and contains exactly the nodes joined by an edge in either direction, every coordinate lookup table entry names an existing node, and the automatic key counter is at least every node key.", "quantifier": "all finite sequences of public calls with arbitrary arguments, including failing calls", "why_tests_cant": "An invariant over unbounded call histories; tests only build a few fixed fixtures.", "anchors": ["src/compas_cem/diagrams/mixins/node_mixins.py::NodeMixins.add_node", "src/compas_cem/diagrams/mixins/node_mixins.py::NodeMixins.update_node_xyz", "src/compas_cem/diagrams/mixins/edge_mixins.py::EdgeMixins.add_edge", "src/compas_cem/diagrams/topology/topology.py::TopologyDiagram.add_support", "src/compas_cem/diagrams/topology/topology.py::TopologyDiagram.add_load", "src/compas_cem/diagrams/topology/topology.py::TopologyDiagram.build_trails", "src/compas_cem/diagrams/topology/topology.py::TopologyDiagram.shift_trail"]}
{"id": "C02", "title": "Automatic node keys are fresh", "statement": "add_node(Node(xyz=p)) without a key returns a key that no node of the diagram has, adds exactly one node at p with default attributes, and leaves every other node and every edge as it was.", "quantifier": "all reachable diagrams and all points", "why_tests_cant": "Freshness must hold after any mixture of explicit and automatic keys.", "anchors": ["src/compas_cem/diagrams/mixins/node_mixins.py::NodeMixins.add_node", "src/compas_cem/elements/node.py::Node"]}
{"id": "C03", "title": "add_node stores and indexes the node it is given", "statement": "add_node(Node(key, p)) returns key; node_coordinates(key) is then exactly p; node_key(p) is then key; every other node, all edges, loads and supports are unchanged; if key already existed only its coordinates change.", "quantifier": "all diagrams, keys (new or existing) and points", "why_tests_cant": "Universally quantified read-after-write plus frame condition.", "anchors": ["src/compas_cem/diagrams/mixins/node_mixins.py::NodeMixins.add_node", "src/compas_cem/diagrams/mixins/node_mixins.py::NodeMixins.node_key", "src/compas_cem/diagrams/mixins/node_mixins.py::NodeMixins.gkey"]}
{"id": "C04", "title": "Coordinate lookup finds a node that was registered at the looked-up location", "statement": "For a diagram built by any history, node_key(p) for a point p is either None or the key of an existing node, and that node was placed by add_node/node_xyz/add_edge at a point whose rounded coordinates equal the rounded coordinates of p (hence within one unit of the last rounded decimal in every coordinate).", "quantifier": "all call histories and all query points", "why_tests_cant": "Depends on the whole history of insertions and moves.", "anchors": ["src/compas_cem/diagrams/mixins/node_mixins.py::NodeMixins.node_key", "src/compas_cem/diagrams/mixins/node_mixins.py::NodeMixins.gkey", "src/compas_cem/diagrams/topology/topology.py::TopologyDiagram.add_support", "src/compas_cem/diagrams/topology/topology.py::TopologyDiagram.add_load"]}
{"id": "C05", "title": "add_edge resolves end points by location and creates only missing nodes", "statement": "add_edge with an end given by coordinates uses the node registered at that rounded location if there is one, and otherwise creates exactly one new node at exactly those coordinates; no existing node is moved, retyped or reloaded; the returned key joins the two resolved nodes and the edge exists afterwards.", "quantifier": "all diagrams and all edges given by coordinates", "why_tests_cant": "Universal read-after-write/frame property.", "anchors": ["src/compas_cem/diagrams/mixins/edge_mixins.py::EdgeMixins.add_edge", "src/compas_cem/elements/edge.py::Edge.from_line"]}
{"id": "C06", "title": "Assembling a diagram from lines welds coincident end points", "statement": "A diagram assembled only from edges given as lines has exactly one node per distinct rounded end point: two line ends share a node if and only if their rounded coordinates coincide, and the number of nodes equals the number of distinct rounded end points.", "quantifier": "all finite lists of lines", "why_tests_cant": "Unbounded list of lines; welding is a global property.", "anchors": ["src/compas_cem/diagrams/mixins/edge_mixins.py::EdgeMixins.add_edge", "src/compas_cem/ghpython/components/CompasCem_TopologyDiagram/code.py::AssembleTopologyDiagramComponent"]}
{"id": "C07", "title": "add_edge writes exactly the given edge", "statement": "After add_edge(TrailEdge(u,v,length,plane)) on existing nodes, the edge (u,v) is a trail edge with that length and plane and its former force; after add_edge(DeviationEdge(u,v,force)) it is a deviation edge with that force and its former length and plane; no other edge and no node changes.", "quantifier": "all diagrams, node pairs and edge values, new or repeated edges", "why_tests_cant": "Frame condition over all other edges.", "anchors": ["src/compas_cem/diagrams/mixins/edge_mixins.py::EdgeMixins.add_edge", "src/compas_cem/elements/trail.py::TrailEdge", "src/compas_cem/elements/deviation.py::DeviationEdge"]}
{"id": "C08", "title": "add_edge between keys that do not exist is rejected without adding an edge", "statement": "add_edge whose ends are integer keys raises, and leaves the diagram unchanged, whenever one of the two keys is not a node.", "quantifier": "all diagrams and all key pairs with a missing key", "why_tests_cant": "Error path must be safe for every diagram.", "anchors": ["src/compas_cem/diagrams/mixins/edge_mixins.py::EdgeMixins.add_edge", "src/compas_cem/diagrams/mixins/node_mixins.py::NodeMixins.node_key"]}
{"id": "C09", "title": "Supports and loads touch one node only, or nothing", "statement": "add_support marks exactly the addressed node as support and add_load sets exactly the addressed node's load vector; nothing else changes. If the node does not exist the call raises (ValueError for an unknown location, KeyError for an unknown key) and nothing changes.", "quantifier": "all diagrams, addresses and load vectors", "why_tests_cant": "Frame condition and error path for all diagrams.", "anchors": ["src/compas_cem/diagrams/topology/topology.py::TopologyDiagram.add_support", "src/compas_cem/diagrams/topology/topology.py::TopologyDiagram.add_load", "src/compas_cem/loads/node.py::NodeLoad", "src/compas_cem/supports/node.py::NodeSupport"]}
{"id": "C10", "title": "Moving a node re-indexes it", "statement": "After node_xyz(key, p) on an existing node, node_xyz(key) returns p, lookup at p returns key, no other node moves, and lookup at the node's previous location no longer returns key.", "quantifier": "all diagrams, keys and points", "why_tests_cant": "Needs every combination of old/new rounded locations.", "anchors": ["src/compas_cem/diagrams/mixins/node_mixins.py::NodeMixins.update_node_xyz", "src/compas_cem/diagrams/mixins/node_mixins.py::NodeMixins.node_xyz"]}
{"id": "C11", "title": "build_trails always terminates", "statement": "For every diagram, whatever its trail edges and supports (cycles, branches, self loops, several supports per component included), build_trails returns or raises an AssertionError after finitely many steps; each trail search visits at most as many nodes as the diagram has.", "quantifier": "all reachable diagrams", "why_tests_cant": "Non-termination cannot be observed by a finite test and cyclic inputs are unbounded.", "anchors": ["src/compas_cem/diagrams/topology/topology.py::TopologyDiagram.build_trails"]}
{"id": "C12", "title": "Every trail is a simple chain of trail edges from an origin to a support", "statement": "After build_trails succeeds, for every stored trail: its key is its first node, the first node is an origin node, consecutive nodes are joined by a trail edge, no node is repeated, its last node was a support when the call started, and the first node has no trail edge leading to a node outside the trail.", "quantifier": "all reachable diagrams without self-loop and anti-parallel edges on which build_trails succeeds, with or without auxiliary trails", "why_tests_cant": "Structural property of a graph search on arbitrary graphs.", "anchors": ["src/compas_cem/diagrams/topology/topology.py::TopologyDiagram.build_trails", "src/compas_cem/diagrams/topology/topology.py::TopologyDiagram.trails"]}
{"id": "C13", "title": "build_trails raises instead of storing incomplete trails", "statement": "build_trails() succeeds only if the diagram has a trail edge, still has a support and every node was reached by a trail search; otherwise it raises AssertionError and the stored trails are those from before the call.", "quantifier": "all reachable diagrams", "why_tests_cant": "Both directions over all topologies.", "anchors": ["src/compas_cem/diagrams/topology/topology.py::TopologyDiagram.build_trails"]}
{"id": "C14", "title": "build_trails recovers the intended trails of a well-posed topology", "statement": "If the trail edges form disjoint open chains covering all nodes, each chain having at least two nodes and exactly one support located at one of its ends, then build_trails succeeds, stores exactly these chains ordered from the far end to the support, marks exactly the far ends as new origins, and sets the sequence of the i-th node of each chain to i.", "quantifier": "all diagrams whose trail edges form such chains, of any number and length, with arbitrary deviation edges", "why_tests_cant": "Functional correctness of the search for every size.", "anchors": ["src/compas_cem/diagrams/topology/topology.py::TopologyDiagram.build_trails", "src/compas_cem/diagrams/topology/topology.py::TopologyDiagram.origin_nodes", "src/compas_cem/diagrams/topology/topology.py::TopologyDiagram.node_sequence"]}
{"id": "C15", "title": "Every node belongs to exactly one stored trail", "statement": "After build_trails succeeds every node of the diagram lies on exactly one stored trail.", "quantifier": "all diagrams on which build_trails succeeds", "why_tests_cant": "Depends on arbitrary branching of trail edges.", "anchors": ["src/compas_cem/diagrams/topology/topology.py::TopologyDiagram.build_trails", "src/compas_cem/diagrams/topology/topology.py::TopologyDiagram.trails"]}
{"id": "C16", "title": "Rebuilding trails is idempotent", "statement": "Calling build_trails again on a diagram on which it has just succeeded succeeds again and yields the same trails, sequences and node types.", "quantifier": "all diagrams on which build_trails succeeds", "why_tests_cant": "State left behind by the first call feeds the second.", "anchors": ["src/compas_cem/diagrams/topology/topology.py::TopologyDiagram.build_trails"]}
{"id": "C17", "title": "Auxiliary trails complete the diagram and nothing else", "statement": "If the trail edges form well-posed chains that do not cover all nodes, build_trails(auxiliary_trails=True) succeeds; it adds for every uncovered node n exactly one new support node at position n + auxiliary_trail_length * unit(auxiliary_trail_vector) and one trail edge (n, new) with length auxiliary_trail_length; each becomes a two-node trail reported by auxiliary_trails; existing nodes, edges, loads and chains are kept.", "quantifier": "all such diagrams, auxiliary lengths and vectors, and any iteration order of Python sets", "why_tests_cant": "Any number of uncovered nodes and any set iteration order.", "anchors": ["src/compas_cem/diagrams/topology/topology.py::TopologyDiagram.build_trails", "src/compas_cem/diagrams/topology/topology.py::TopologyDiagram.auxiliary_trails", "src/compas_cem/diagrams/topology/topology.py::TopologyDiagram.auxiliary_trail_edges"]}
{"id": "C18", "title": "Auxiliary trails stay registered when trails are rebuilt", "statement": "After build_trails(auxiliary_trails=True), calling it again still reports the auxiliary trails that are part of the diagram.", "quantifier": "all diagrams with uncovered nodes", "why_tests_cant": "History-dependent bookkeeping.", "anchors": ["src/compas_cem/diagrams/topology/topology.py::TopologyDiagram.build_trails", "src/compas_cem/diagrams/topology/topology.py::TopologyDiagram.auxiliary_trails"]}
{"id": "C19", "title": "build_trails changes node types and sequences only", "statement": "build_trails() never changes node keys, coordinates, loads, edges, edge attributes, or the coordinate lookup table, whether it succeeds or raises; with auxiliary_trails=True it only adds nodes and edges and keeps the existing ones.", "quantifier": "all reachable diagrams", "why_tests_cant": "Frame condition over all inputs including failures.", "anchors": ["src/compas_cem/diagrams/topology/topology.py::TopologyDiagram.build_trails"]}
{"id": "C20", "title": "shift_trail renumbers exactly one trail", "statement": "shift_trail(key, s) on the key of a stored trail sets the sequence of its i-th node to s+i, changes no other attribute or node, and trail_sequences(key) then maps s+i to the i-th node; on a key that is not an origin it raises AssertionError and changes nothing.", "quantifier": "all diagrams with trails, all keys and starting sequences", "why_tests_cant": "Unbounded trail length and frame condition.", "anchors": ["src/compas_cem/diagrams/topology/topology.py::TopologyDiagram.shift_trail", "src/compas_cem/diagrams/topology/topology.py::TopologyDiagram.trail_sequences"]}
{"id": "C21", "title": "sequences() partitions the nodes", "statement": "When every node has a sequence number >= 0, sequences() yields number_of_sequences() groups, group k containing exactly the nodes with sequence k, so that every node appears in exactly one group exactly once; number_of_sequences() is one more than the largest sequence number.", "quantifier": "all diagrams with assigned non-negative sequences", "why_tests_cant": "For every assignment of sequences, gaps included.", "anchors": ["src/compas_cem/diagrams/topology/topology.py::TopologyDiagram.sequences", "src/compas_cem/diagrams/topology/topology.py::TopologyDiagram.number_of_sequences", "src/compas_cem/diagrams/topology/topology.py::TopologyDiagram.sequence_last"]}
{"id": "C22", "title": "Direct and indirect deviation edges partition the deviation edges", "statement": "When every node has a sequence, every deviation edge is exactly one of direct (both ends on the same sequence) or indirect, no trail edge is either, and the counts add up to the number of deviation edges.", "quantifier": "all diagrams with assigned sequences", "why_tests_cant": "For every graph and sequence assignment.", "anchors": ["src/compas_cem/diagrams/topology/topology.py::TopologyDiagram.is_direct_deviation_edge", "src/compas_cem/diagrams/topology/topology.py::TopologyDiagram.is_indirect_deviation_edge", "src/compas_cem/diagrams/topology/topology.py::TopologyDiagram.direct_deviation_edges", "src/compas_cem/diagrams/topology/topology.py::TopologyDiagram.indirect_deviation_edges"]}
{"id": "C23", "title": "Connected-edge queries are sound and complete", "statement": "connected_trail_edges(n) / connected_deviation_edges(n) return, without repetition, exactly the keys of the stored edges of that type incident to n, in their stored orientation, provided no node pair is joined by edges in both directions and there is no self loop.", "quantifier": "all reachable diagrams and nodes", "why_tests_cant": "Soundness and completeness over arbitrary graphs.", "anchors": ["src/compas_cem/diagrams/topology/topology.py::TopologyDiagram.connected_deviation_edges", "src/compas_cem/diagrams/topology/topology.py::TopologyDiagram.connected_trail_edges", "src/compas_cem/diagrams/topology/topology.py::TopologyDiagram._connected_edges_predicate"]}
{"id": "C24", "title": "trails_sequences inverts node sequences", "statement": "trails_sequences()[key][k] is a node of trail key whose sequence is k, and after build_trails or shift_trail it lists every node of every trail exactly once.", "quantifier": "all diagrams with disjoint stored trails", "why_tests_cant": "Unbounded number and length of trails.", "anchors": ["src/compas_cem/diagrams/topology/topology.py::TopologyDiagram.trail_sequences", "src/compas_cem/diagrams/topology/topology.py::TopologyDiagram.trails_sequences"]}
{"id": "C25", "title": "Nodal equilibrium", "statement": "node_equilibrium returns the unique trail vector that balances the node: incoming trail vector reversed + load + forces of the considered deviation edges + returned vector = 0, where each considered deviation edge contributes its force times the unit vector from the node to the other end.", "quantifier": "all diagrams, nodes, incoming vectors and positions (real arithmetic)", "why_tests_cant": "An algebraic identity over all real inputs.", "anchors": ["src/compas_cem/equilibrium/force.py::node_equilibrium", "src/compas_cem/equilibrium/force.py::trail_vector_out", "src/compas_cem/equilibrium/force.py::deviation_edges_resultant_vector", "src/compas_cem/equilibrium/force.py::incoming_edge_vectors"]}
{"id": "C26", "title": "Deviation edges act with opposite forces on their two ends", "statement": "The force vector contributed by a deviation edge at one end is the opposite of the one it contributes at the other end, for tension and compression alike.", "quantifier": "all positions and force values", "why_tests_cant": "Algebraic identity (Newton's third law) over all reals.", "anchors": ["src/compas_cem/equilibrium/force.py::deviation_edges_resultant_vector", "src/compas_cem/equilibrium/force.py::incoming_edge_vectors", "src/compas_cem/equilibrium/force.py::vector_two_nodes"]}
{"id": "C27", "title": "Plane intersection length is exact", "statement": "trail_length_from_plane_intersection(p, v, plane) returns None exactly when |normal . unit(v)| < tol; otherwise the returned length l is the only number with p + l*unit(v) on the plane.", "quantifier": "all points, vectors, planes and tolerances > 0 (real arithmetic)", "why_tests_cant": "Identity over all reals including degenerate vectors.", "anchors": ["src/compas_cem/equilibrium/force.py::trail_length_from_plane_intersection", "src/compas_cem/equilibrium/force_numpy.py::trail_length_from_plane_intersection_numpy"]}
{"id": "C28", "title": "Trail edges with a plane end on their plane", "statement": "In the form diagram returned by static_equilibrium, the far end of every trail edge that has a plane lies on that plane, except where the outgoing force is parallel to the plane within tolerance or the near end already lies on it, in which case the input length is used.", "quantifier": "all well-posed topologies with any number of planes", "why_tests_cant": "Quantifies over all topologies, planes, loads.", "anchors": ["src/compas_cem/equilibrium/force.py::equilibrium_state", "src/compas_cem/equilibrium/force.py::form_update"]}
{"id": "C29", "title": "Trail edges without a plane keep their assigned signed length", "statement": "In the form diagram returned by static_equilibrium, every trail edge without a plane that carries a non-zero force has geometric length equal to the absolute value of its assigned length, and its force and length attributes have the sign of the assigned length.", "quantifier": "all well-posed topologies, loads and lengths", "why_tests_cant": "For all inputs; tests compare a handful of numbers.", "anchors": ["src/compas_cem/equilibrium/force.py::equilibrium_state", "src/compas_cem/equilibrium/force.py::form_update"]}
{"id": "C30", "title": "A plane preserves the tension/compression state of a trail edge", "statement": "As documented for TrailEdge: if a plane overrides the length of a trail edge, the sign of the length (the combinatorial state) is preserved.", "quantifier": "all well-posed topologies with planes", "why_tests_cant": "Needs all plane positions relative to the force direction.", "anchors": ["src/compas_cem/elements/trail.py::TrailEdge", "src/compas_cem/equilibrium/force.py::equilibrium_state"]}
{"id": "C31", "title": "Form diagrams of direct topologies are in exact static equilibrium", "statement": "If all deviation edges are direct and trail lengths are non-zero, then in the form returned by static_equilibrium, at every node the applied load plus the pulls of all incident edges (force times unit vector towards the other end) plus the reaction (at supports) is exactly zero.", "quantifier": "all well-posed topologies without indirect deviation edges, all loads, forces, lengths, planes, tmax >= 1 (real arithmetic)", "why_tests_cant": "The central physical claim, over all structures.", "anchors": ["src/compas_cem/equilibrium/force.py::static_equilibrium", "src/compas_cem/equilibrium/force.py::equilibrium_state", "src/compas_cem/equilibrium/force.py::form_update"]}
{"id": "C32", "title": "Form diagrams are in static equilibrium up to the convergence threshold", "statement": "For any well-posed topology, in the form returned by static_equilibrium with tmax >= 2 the unbalanced force at a node is at most the sum over its indirect deviation edges of 2*|force|*eta/length; in particular it is zero when the last two iterations coincide.", "quantifier": "all well-posed topologies, tmax >= 2, eta (real arithmetic)", "why_tests_cant": "Quantitative bound over all structures and iteration counts.", "anchors": ["src/compas_cem/equilibrium/force.py::static_equilibrium", "src/compas_cem/equilibrium/force.py::equilibrium_state"]}
{"id": "C33", "title": "Global force balance", "statement": "In a form in exact nodal equilibrium, the reaction forces at the supports balance all the applied loads: their sum is zero.", "quantifier": "all well-posed topologies without indirect deviation edges, and all iterations that have come to rest", "why_tests_cant": "Sum over structures of any size.", "anchors": ["src/compas_cem/equilibrium/force.py::static_equilibrium"]}
{"id": "C34", "title": "Global moment balance", "statement": "In a form in exact nodal equilibrium, the moments of the reactions at the supports balance the moments of all the applied loads about every point.", "quantifier": "as for force balance, and every reference point", "why_tests_cant": "Sum over structures of any size.", "anchors": ["src/compas_cem/equilibrium/force.py::static_equilibrium"]}
{"id": "C35", "title": "Direct topologies need one iteration", "statement": "Without indirect deviation edges the form does not depend on tmax >= 1 and eta > 0, and static_equilibrium never raises for lack of convergence.", "quantifier": "all well-posed topologies without indirect deviation edges, all tmax and eta", "why_tests_cant": "Independence of parameters over unbounded ranges.", "anchors": ["src/compas_cem/equilibrium/force.py::equilibrium_state"]}
{"id": "C36", "title": "Convergence contract", "statement": "If static_equilibrium returns with tmax >= 2, the sum of node displacements in its last iteration is at most eta; if it never gets within eta in tmax iterations it raises ValueError.", "quantifier": "all topologies, tmax >= 2 and eta", "why_tests_cant": "Iteration count is unbounded.", "anchors": ["src/compas_cem/equilibrium/force.py::equilibrium_state", "src/compas_cem/equilibrium/force_numpy.py::equilibrium_state_numpy"]}
{"id": "C37", "title": "Form finding leaves the topology diagram and all input quantities intact", "statement": "static_equilibrium does not modify the topology diagram; the form has the same nodes, edges, supports, loads and deviation forces, and its origin nodes are where they were.", "quantifier": "all topologies", "why_tests_cant": "Frame condition over all inputs.", "anchors": ["src/compas_cem/equilibrium/force.py::static_equilibrium", "src/compas_cem/equilibrium/force.py::form_update", "src/compas_cem/diagrams/form.py::FormDiagram.from_topology_diagram"]}
{"id": "C38", "title": "kmax larger than the last sequence is ignored", "statement": "static_equilibrium with kmax >= the last sequence returns the same form as with kmax=None; a negative kmax raises AssertionError.", "quantifier": "all well-posed topologies and all such kmax", "why_tests_cant": "Equality of two runs for all inputs.", "anchors": ["src/compas_cem/equilibrium/force.py::equilibrium_state"]}
{"id": "C39", "title": "kmax stops the computation at sequence kmax", "statement": "As documented, kmax is the last sequence equilibrium is calculated at: nodes on sequences beyond kmax keep their topology positions.", "quantifier": "all well-posed topologies and kmax", "why_tests_cant": "Depends on all trail lengths and kmax.", "anchors": ["src/compas_cem/equilibrium/force.py::static_equilibrium", "src/compas_cem/equilibrium/force.py::equilibrium_state"]}
{"id": "C40", "title": "Edge lengths of the form agree with its geometry", "statement": "After static_equilibrium the length attribute of every edge has absolute value equal to the distance between its two end nodes and is negative exactly if its force is negative.", "quantifier": "all topologies on which form finding succeeds", "why_tests_cant": "Every edge of every structure.", "anchors": ["src/compas_cem/equilibrium/force.py::form_update", "src/compas_cem/equilibrium/force_numpy.py::form_update"]}
{"id": "C41", "title": "The numpy backend computes the same equilibrium", "statement": "equilibrium_state_numpy performs, iteration by iteration, the same updates as equilibrium_state as long as no deviation edge has zero length and no trail vector vanishes; on direct topologies both return the same positions, forces and reactions.", "quantifier": "all such topologies (real arithmetic)", "why_tests_cant": "Equivalence of two programs on all inputs.", "anchors": ["src/compas_cem/equilibrium/force_numpy.py::equilibrium_state_numpy", "src/compas_cem/equilibrium/force_numpy.py::form_update", "src/compas_cem/equilibrium/force.py::equilibrium_state"]}
{"id": "C42", "title": "Form finding commutes with translation", "statement": "Translating all node coordinates and planes of a topology by a vector translates the resulting form by that vector and leaves forces, lengths and reactions unchanged.", "quantifier": "all topologies, translations, tmax, eta, kmax (real arithmetic)", "why_tests_cant": "Metamorphic relation over all structures.", "anchors": ["src/compas_cem/equilibrium/force.py::static_equilibrium"]}
{"id": "C43", "title": "Form finding is homogeneous in the forces", "statement": "Scaling all loads and deviation forces by c > 0 leaves the geometry unchanged and scales trail forces and reactions by c.", "quantifier": "all topologies with zero initial reactions, c > 0 (real arithmetic)", "why_tests_cant": "Metamorphic relation over all structures.", "anchors": ["src/compas_cem/equilibrium/force.py::static_equilibrium"]}
{"id": "C44", "title": "Parameter bounds enclose the start value", "statement": "bound_low(topology) <= start_value(topology) <= bound_up(topology) for every parameter, whatever the signs of the given bounds; a bound of None means unbounded.", "quantifier": "all parameters, bounds and diagrams", "why_tests_cant": "All real bounds and start values.", "anchors": ["src/compas_cem/optimization/parameters/parameter.py::Parameter.bound_low", "src/compas_cem/optimization/parameters/parameter.py::Parameter.bound_up", "src/compas_cem/optimization/optimizer.py::Optimizer.optimization_bounds"]}
{"id": "C45", "title": "Optimization variables round-trip through the diagram", "statement": "After the optimizer writes a vector of variables into the diagram, reading the variables back yields that vector when no two parameters address the same quantity, and nothing but the addressed quantities changes.", "quantifier": "all sets of distinct parameters, vectors and diagrams", "why_tests_cant": "Unbounded number of parameters, frame condition.", "anchors": ["src/compas_cem/optimization/optimizer.py::Optimizer._update_parameters", "src/compas_cem/optimization/optimizer.py::Optimizer.optimization_parameters"]}
{"id": "C46", "title": "The objective is a function of the variables only", "statement": "The objective value at x does not depend on which points were evaluated before on the same diagram.", "quantifier": "all evaluation histories, all parameter/constraint sets and diagrams", "why_tests_cant": "All histories of a mutating objective.", "anchors": ["src/compas_cem/optimization/optimizer.py::Optimizer._optimize_form", "src/compas_cem/optimization/optimizer.py::Optimizer._update_parameters", "src/compas_cem/optimization/objective_func.py::objective_function_numpy"]}
{"id": "C47", "title": "Finite-difference gradient", "statement": "grad_finite_differences returns (f(x+h e_i)-f(x))/h in every component i, leaves x unchanged, and is exact for affine objectives.", "quantifier": "all objectives, dimensions, points and h != 0", "why_tests_cant": "All dimensions and functions.", "anchors": ["src/compas_cem/optimization/grad.py::grad_finite_differences"]}
{"id": "C48", "title": "Penalties are non-negative and vanish exactly on satisfied constraints", "statement": "With positive weights the total penalty is >= 0, is the sum of the weighted squared deviations, and is 0 if and only if every constraint is met exactly.", "quantifier": "all constraint sets and equilibrium states", "why_tests_cant": "Unbounded constraint sets, all reals.", "anchors": ["src/compas_cem/optimization/optimizer.py::Optimizer._calculate_penalty", "src/compas_cem/optimization/constraints/constraint.py::VectorConstraint.penalty", "src/compas_cem/optimization/constraints/constraint.py::FloatConstraint.penalty"]}
{"id": "C49", "title": "Line and plane constraints measure the distance to the target", "statement": "The penalty of a line (plane) constraint is weight times the squared distance from the node to the nearest point of the infinite line (plane): no point of the target is nearer.", "quantifier": "all points, non-degenerate lines and planes", "why_tests_cant": "Optimality over a continuum of points.", "anchors": ["src/compas_cem/optimization/constraints/line.py::LineConstraint.target", "src/compas_cem/optimization/constraints/plane.py::PlaneConstraint.target"]}
{"id": "C50", "title": "Polyline constraint pulls to the nearest point of the polyline", "statement": "The target of a polyline constraint is a point of the polyline and no point of any of its segments is nearer to the node.", "quantifier": "all points and polylines with any number of segments", "why_tests_cant": "Optimality over a continuum and unbounded lists.", "anchors": ["src/compas_cem/optimization/constraints/polyline.py::PolylineConstraint._closest_point_on_polyline"]}
{"id": "C51", "title": "Direction constraint is met exactly by parallel edges", "statement": "The penalty of an edge direction constraint with positive weight is zero if and only if the edge is parallel to the target vector (in either sense), and it does not depend on the magnitude or sense of the target vector.", "quantifier": "all non-zero edges and target vectors", "why_tests_cant": "Equivalence over all reals.", "anchors": ["src/compas_cem/optimization/constraints/direction.py::EdgeDirectionConstraint.target", "src/compas_cem/optimization/constraints/direction.py::EdgeDirectionConstraint.reference"]}
{"id": "C52", "title": "Removing a parameter keeps the optimizer usable", "statement": "After any history of add_parameter/remove_parameter calls, the optimizer still produces one variable per remaining parameter.", "quantifier": "all add/remove histories", "why_tests_cant": "History dependent.", "anchors": ["src/compas_cem/optimization/optimizer.py::Optimizer.add_parameter", "src/compas_cem/optimization/optimizer.py::Optimizer.remove_parameter", "src/compas_cem/optimization/optimizer.py::Optimizer.optimization_parameters"]}
{"id": "C53", "title": "solve rejects ill-posed problems before touching the diagram", "statement": "Optimizer.solve raises ValueError, without modifying the diagram, when there are no parameters, no constraints or the gradient method is unknown, and KeyError for an unknown algorithm name.", "quantifier": "all optimizers, diagrams and names", "why_tests_cant": "All inputs on error paths.", "anchors": ["src/compas_cem/optimization/optimizer.py::Optimizer.solve", "src/compas_cem/optimization/optimizer.py::Optimizer.check_optimization_sanity", "src/compas_cem/optimization/nlopt.py::nlopt_algorithm"]}
{"id": "C54", "title": "The form returned by solve is the form of the optimal variables", "statement": "The form returned by Optimizer.solve is the equilibrium form of the diagram at the reported optimum x_opt, computed with the caller's tmax and eta.", "quantifier": "all problems and all behaviours of the external solver", "why_tests_cant": "The external solver may evaluate in any order.", "anchors": ["src/compas_cem/optimization/optimizer.py::Optimizer.solve"]}
{"id": "C55", "title": "Constraints and parameters survive serialization", "statement": "Reading back the data of a node or edge parameter, or of a constraint, yields the same key, bounds, attribute, weight and target.", "quantifier": "all parameters and constraints with integer or integer-pair keys", "why_tests_cant": "Round trip over all keys, including negative and large integers.", "anchors": ["src/compas_cem/optimization/parameters/edge.py::EdgeParameter.data", "src/compas_cem/optimization/parameters/node.py::NodeParameter.data", "src/compas_cem/optimization/constraints/constraint.py::Constraint.data", "src/compas_cem/optimization/constraints/constraint.py::FloatConstraint.data"]}
{"id": "C56", "title": "Polyedges are split into trails and deviation edges without loss", "statement": "from_dualquadmesh classifies every edge of every polyedge exactly once: all deviation (no supported end), all trail (one supported end), or two trail halves whose lengths differ by at most one separated by exactly one deviation edge (both ends supported, second vertex not supported). A polyedge whose two ends and second vertex are supported contributes no edge. The diagram has the vertices of the mesh, the requested supports, and these edges with the requested lengths and forces.", "quantifier": "all polyedges of length >= 2 and support sets", "why_tests_cant": "All list lengths.", "anchors": ["src/compas_cem/diagrams/topology/mesh_mixins.py::MeshMixins.from_dualquadmesh"]}
{"id": "C57", "title": "Edge widths interpolate force magnitudes", "statement": "With a (low, high) width range every drawn edge gets a width between low and high, in proportion to the magnitude of its force: low for the smallest and high for the largest magnitude. A number gives that width to all edges and a dictionary is used as it is.", "quantifier": "all force distributions and ranges low <= high", "why_tests_cant": "All lists of reals.", "anchors": ["src/compas_cem/viewers/diagramobject.py::DiagramObject.edge_width", "src/compas_cem/plotters/formartist.py::FormArtist.edge_width"]}
{"id": "C58", "title": "A form diagram can be searched by its own coordinates", "statement": "In a form returned by static_equilibrium, looking up the coordinates of a node returns a node located there.", "quantifier": "all topologies", "why_tests_cant": "Depends on how far nodes moved.", "anchors": ["src/compas_cem/equilibrium/force.py::form_update", "src/compas_cem/diagrams/mixins/node_mixins.py::NodeMixins.node_key", "src/compas_cem/ghpython/components/CompasCem_SearchNodeKey/code.py::SearchNodeKeyComponent"]}
{"id": "C59", "title": "Supports stay supports", "statement": "After build_trails() succeeds every node that was a support is still a support and no other node has become one.", "quantifier": "all diagrams on which build_trails succeeds", "why_tests_cant": "Depends on the order in which the search meets the supports, for every graph.", "anchors": ["src/compas_cem/diagrams/topology/topology.py::TopologyDiagram.build_trails"]}
{"id": "C60", "title": "A failing add_edge changes nothing", "statement": "If add_edge raises, the diagram is as before the call.", "quantifier": "all diagrams and all combinations of ends given by key or by coordinates", "why_tests_cant": "The state after a failure, for every diagram and every pair of ends.", "anchors": ["src/compas_cem/diagrams/mixins/edge_mixins.py::EdgeMixins.add_edge"]}
{"id": "C61", "title": "A built topology is ready for form finding", "statement": "If the trail edges form disjoint open chains ending in the supports, a successful build_trails (plain when the chains cover all nodes, auxiliary otherwise) leaves a topology on which static_equilibrium cannot fail other than by lack of convergence; setting coordinates, loads, lengths or forces, or shifting a trail to a non-negative sequence, keeps it so.", "quantifier": "all well-posed topologies, all orders of set iteration, all later calls", "why_tests_cant": "Every topology and every history of calls.", "anchors": ["src/compas_cem/diagrams/topology/topology.py::TopologyDiagram.build_trails", "src/compas_cem/diagrams/topology/topology.py::TopologyDiagram.shift_trail", "src/compas_cem/equilibrium/force.py::static_equilibrium"]}
{"id": "C62", "title": "Form finding commutes with rotations and reflections", "statement": "Applying a rotation or a reflection about the origin to all coordinates, planes and loads of a topology applies it to the resulting form and its reactions; forces and lengths are unchanged.", "quantifier": "all topologies, all linear isometries of space, all settings", "why_tests_cant": "All reals.", "anchors": ["src/compas_cem/equilibrium/force.py::static_equilibrium"]}
{"id": "C63", "title": "Form finding is homogeneous in the geometry", "statement": "Scaling all coordinates, planes and trail lengths of a topology, and the threshold eta, by s > 0 scales the coordinates and lengths of the form by s and leaves forces and reactions unchanged.", "quantifier": "all topologies, all s > 0, all settings", "why_tests_cant": "All reals.", "anchors": ["src/compas_cem/equilibrium/force.py::static_equilibrium"]}
{"id": "C64", "title": "Planar topologies have planar forms", "statement": "If all coordinates, loads and planes of a topology lie in the plane z = 0, so do all coordinates and reactions of the form.", "quantifier": "all topologies in a plane, all settings", "why_tests_cant": "All reals and all topologies.", "anchors": ["src/compas_cem/equilibrium/force.py::static_equilibrium"]}
{"id": "C65", "title": "A form that is returned has numbers for coordinates", "statement": "When coordinates, loads, lengths and forces of a topology are finite floats, static_equilibrium with tmax >= 2 does not return a form with a coordinate that is not a number.", "quantifier": "all topologies over binary64 floats, all settings", "why_tests_cant": "Overflow can occur anywhere in the structure.", "anchors": ["src/compas_cem/equilibrium/force.py::static_equilibrium", "src/compas_cem/equilibrium/force.py::equilibrium_state"]}
{"id": "C66", "title": "Only the coordinates of the origins matter", "statement": "Two topologies that differ only in the coordinates of nodes that are not the first of a trail have the same outcome of static_equilibrium: the same error, or the same form.", "quantifier": "all pairs of such topologies, all tmax and eta, kmax None", "why_tests_cant": "All topologies and all values of the ignored coordinates.", "anchors": ["src/compas_cem/equilibrium/force.py::static_equilibrium", "src/compas_cem/equilibrium/force.py::equilibrium_state"]}
{"id": "C67", "title": "Listings and predicates of nodes and edges agree", "statement": "support_nodes and origin_nodes yield exactly the nodes for which is_node_support and is_node_origin hold, each once; loaded_nodes(min_force) exactly the nodes with a load longer than min_force; is_edge_supported holds when one end is a support; every edge is a trail edge or a deviation edge and not both; auxiliary_trail_edges yields exactly the registered auxiliary trails, which are all edges of the diagram.", "quantifier": "all diagrams built by any history of calls, all nodes, edges and thresholds", "why_tests_cant": "Every history of calls, including failed ones and rebuilt trails.", "anchors": ["src/compas_cem/diagrams/diagram.py::Diagram.support_nodes", "src/compas_cem/diagrams/diagram.py::Diagram.loaded_nodes", "src/compas_cem/diagrams/diagram.py::Diagram.is_edge_supported", "src/compas_cem/diagrams/topology/topology.py::TopologyDiagram.origin_nodes", "src/compas_cem/diagrams/topology/topology.py::TopologyDiagram.trail_edges", "src/compas_cem/diagrams/topology/topology.py::TopologyDiagram.deviation_edges", "src/compas_cem/diagrams/topology/topology.py::TopologyDiagram.auxiliary_trail_edges"]}
{"id": "C68", "title": "The optimizer holds what was added and not removed", "statement": "After any sequence of add_parameter, remove_parameter, add_constraint and remove_constraint calls, the parameters and constraints of the optimizer are exactly those added and not removed since, each under its number in the order of addition. Only removing what is not there raises (KeyError), and changes nothing.", "quantifier": "all sequences of calls, with exceptions caught", "why_tests_cant": "Every history of calls.", "anchors": ["src/compas_cem/optimization/optimizer.py::Optimizer.add_parameter", "src/compas_cem/optimization/optimizer.py::Optimizer.remove_parameter", "src/compas_cem/optimization/optimizer.py::Optimizer.add_constraint", "src/compas_cem/optimization/optimizer.py::Optimizer.remove_constraint"]}
{"id": "C69", "title": "The solver gets the problem the user posed, and the optimizer reports its answer", "statement": "solve hands NLopt the chosen algorithm, one variable per parameter starting at its value in the topology, with its bounds, and the stopping criteria iters, eps and kappa. All six documented algorithms are accepted. Afterwards x_opt, penalty, evals, status, gradient and gradient_norm are those of NLopt's answer, where the gradient is that of the objective at x_opt.", "quantifier": "all optimizers, topologies, settings and all behaviours of the external solver", "why_tests_cant": "The solver may evaluate the objective anywhere and as often as it likes, and end in any way.", "anchors": ["src/compas_cem/optimization/optimizer.py::Optimizer.solve", "src/compas_cem/optimization/nlopt.py::nlopt_solver", "src/compas_cem/optimization/nlopt.py::nlopt_algorithms", "src/compas_cem/optimization/nlopt.py::nlopt_status"]}
{"id": "C70", "title": "Arrows show the loads and the reactions", "statement": "The arrows drawn are those of the nodes asked for whose load or reaction is not below the tolerance, in order. Each is the force times the scale. It starts at its node, after the gap, or, for a reaction of a node whose most loaded edge is in compression, ends there. So in a form in equilibrium the arrow of the reaction of an unloaded support with one edge is drawn outside the structure.", "quantifier": "all diagrams and forms, all selections of nodes, scales >= 0, gaps and tolerances; viewer, plotter and Grasshopper", "why_tests_cant": "All reals and all graphs.", "anchors": ["src/compas_cem/viewers/diagramobject.py::DiagramObject.draw_loads", "src/compas_cem/viewers/diagramobject.py::DiagramObject.draw_residuals", "src/compas_cem/plotters/formartist.py::FormArtist.draw_loads", "src/compas_cem/plotters/formartist.py::FormArtist.draw_reactions", "src/compas_cem/ghpython/artists.py::DiagramArtist.draw_loads", "src/compas_cem/ghpython/artists.py::FormArtist.draw_reactions"]}
{"id": "C71", "title": "Colors show what edges and nodes are", "statement": "Edges of a form are drawn in one color for tension, one for compression and one for no force, the same in the viewer and the plotter. Edges of a topology are drawn by their kind (auxiliary trail, trail, direct or indirect deviation edge), or by the sign of their length or force. Supports, origins and other nodes have different colors. Trail edges are solid, deviation edges dashed; crosses mark the loaded nodes. The groups drawn make up the edges.", "quantifier": "all diagrams and forms, all selections of nodes and edges", "why_tests_cant": "Every history of calls and all reals.", "anchors": ["src/compas_cem/viewers/formobject.py::FormDiagramObject.edge_color", "src/compas_cem/viewers/formobject.py::FormDiagramObject.node_color", "src/compas_cem/viewers/formobject.py::FormDiagramObject.edges_by_type", "src/compas_cem/viewers/topologyobject.py::TopologyDiagramObject.edge_color", "src/compas_cem/viewers/topologyobject.py::TopologyDiagramObject.node_color", "src/compas_cem/viewers/topologyobject.py::TopologyDiagramObject.edges_by_type", "src/compas_cem/plotters/formartist.py::FormArtist.draw_edges", "src/compas_cem/plotters/formartist.py::FormArtist.draw_nodes", "src/compas_cem/plotters/topologyartist.py::TopologyArtist.draw_edges", "src/compas_cem/plotters/topologyartist.py::TopologyArtist.draw_nodes", "src/compas_cem/plotters/topologyartist.py::TopologyArtist.draw_loads"]}
{"id": "C72", "title": "Grasshopper draws what is selected", "statement": "Given a selection of nodes or edges, the Grasshopper artists draw exactly the selected ones of the kind asked for (supports, origins, trail or deviation edges), in order and where they are; without a selection, all of that kind. Trails are drawn through their nodes in order.", "quantifier": "all diagrams and all selections", "why_tests_cant": "All selections of all diagrams.", "anchors": ["src/compas_cem/ghpython/artists.py::DiagramArtist.draw_nodes", "src/compas_cem/ghpython/artists.py::DiagramArtist.draw_edges", "src/compas_cem/ghpython/artists.py::DiagramArtist.draw_nodes_support", "src/compas_cem/ghpython/artists.py::TopologyArtist.draw_nodes_origin", "src/compas_cem/ghpython/artists.py::TopologyArtist.draw_edges_trail", "src/compas_cem/ghpython/artists.py::TopologyArtist.draw_edges_deviation", "src/compas_cem/ghpython/artists.py::TopologyArtist.draw_trails"]}
{"id": "C73", "title": "Nodes and edges are shown and hidden independently", "statement": "Assigning show_nodes or show_edges of a viewer object changes the visibility of nodes or edges only, and the value assigned can be read back.", "quantifier": "all sequences of assignments", "why_tests_cant": "Every history of assignments.", "anchors": ["src/compas_cem/viewers/diagramobject.py::DiagramObject.show_nodes", "src/compas_cem/viewers/diagramobject.py::DiagramObject.show_edges"]}
{"id": "C74", "title": "Names, orders and directions do not matter", "statement": "If two topologies differ only in the names of the nodes, the order in which nodes, edges and trails were added and the direction in which edges were given, their forms are the same up to these differences: every node is in the same place and every edge has the same force and length.", "quantifier": "all pairs of topologies that correspond under a renaming, in equilibrium over the reals, all numbers of passes and thresholds", "why_tests_cant": "All graphs, all renamings and all orders.", "anchors": ["src/compas_cem/equilibrium/force.py::static_equilibrium", "src/compas_cem/equilibrium/force.py::equilibrium_state", "src/compas_cem/diagrams/topology/topology.py::TopologyDiagram.build_trails"]}
{"id": "C75", "title": "What comes later, or elsewhere, has no influence", "statement": "Where a node of the form is depends only on its origin and what comes before it on its trail, and on the trails it is tied to by direct deviation edges up to there. A load, a deviation force or a trail length on sequence k or later does not move nodes up to sequence k. A part of a structure has the same form, forces and reactions alone as beside other parts it is not connected to.", "quantifier": "all topologies ready for form finding, all changes downstream, all larger structures", "why_tests_cant": "All graphs and all changes.", "anchors": ["src/compas_cem/equilibrium/force.py::static_equilibrium", "src/compas_cem/equilibrium/force.py::equilibrium_state", "src/compas_cem/equilibrium/force.py::deviation_edges_resultant_vector"]}
{"id": "C76", "title": "More passes or a looser threshold do not lose a form", "statement": "A form found with tmax >= 2 passes is also found, and is the same, with a larger tmax. A form found with a threshold eta is also found with a larger one.", "quantifier": "all topologies, with direct and indirect deviation edges, all tmax, eta and kmax", "why_tests_cant": "The passes form a sequence without bound that may grow again.", "anchors": ["src/compas_cem/equilibrium/force.py::static_equilibrium", "src/compas_cem/equilibrium/force.py::equilibrium_state"]}
{"id": "C77", "title": "The assembled topology is the one drawn", "statement": "The Grasshopper component that assembles a topology returns the diagram whose nodes are the ends of the given lines (points equal after rounding being one node), whose edges are the lines, with the loads and the supports at the points given and nowhere else. Inputs that are not connected are skipped. Trails are traced if trail edges and supports are given, or deviation edges and auxiliary trails. If the trail edges form chains that end in supports, the result is ready for form finding. A load or a support that is not at the end of a line is rejected.", "quantifier": "all lists of trail edges, deviation edges, loads and supports, all iteration orders of sets", "why_tests_cant": "All drawings, with any number of lines and coinciding points.", "anchors": ["src/compas_cem/ghpython/components/CompasCem_TopologyDiagram/code.py", "src/compas_cem/ghpython/components/CompasCem_EdgeTrail/code.py", "src/compas_cem/ghpython/components/CompasCem_EdgeDeviation/code.py", "src/compas_cem/ghpython/components/CompasCem_NodeLoad/code.py", "src/compas_cem/ghpython/components/CompasCem_NodeSupport/code.py"]}
{"id": "C78", "title": "Moving origins and shifting trails change nothing else", "statement": "Moving the listed origins puts each at its point, the last point being repeated, and leaves the other nodes, the edges, the loads, the supports and the trails; the origins are then found at their new points. Shifting trails changes the sequences of the trails listed, by as much as asked, and of no other. The topology stays ready for form finding. The diagram given is not changed.", "quantifier": "all topologies and all lists of origins, points and sequences", "why_tests_cant": "All topologies and lists of any length.", "anchors": ["src/compas_cem/ghpython/components/CompasCem_OriginNodesMove/code.py", "src/compas_cem/ghpython/components/CompasCem_TrailsShift/code.py"]}
{"id": "C79", "title": "Searching finds the node or the edge drawn", "statement": "Searching for a node by a point returns the key of the node at this point, and fails only if there is none. Searching for an edge by a line returns the key of the edge between its ends, in whichever direction the line is drawn, and fails if there is none.", "quantifier": "all topologies assembled from lines, before and after tracing their trails, all points and lines", "why_tests_cant": "All points and all drawings.", "anchors": ["src/compas_cem/ghpython/components/CompasCem_SearchNodeKey/code.py", "src/compas_cem/ghpython/components/CompasCem_SearchEdgeKey/code.py"]}
{"id": "C80", "title": "Inputs given are used, the others have defaults", "statement": "The values given to the form finding, constrained form finding and constraint components are the ones that are used; an input that is not connected has its default value. Constraints and parameters that are not connected are skipped.", "quantifier": "all combinations of inputs, all values", "why_tests_cant": "All values of all combinations of inputs.", "anchors": ["src/compas_cem/ghpython/components/CompasCem_FormFinding/code.py", "src/compas_cem/ghpython/components/CompasCem_ConstrainedFormFinding/code.py", "src/compas_cem/ghpython/components/CompasCem_ConstraintNodePoint/code.py", "src/compas_cem/ghpython/components/CompasCem_ConstraintNodeLine/code.py", "src/compas_cem/ghpython/components/CompasCem_ConstraintNodePlane/code.py", "src/compas_cem/ghpython/components/CompasCem_ConstraintNodePolyline/code.py", "src/compas_cem/ghpython/components/CompasCem_ConstraintReactionForce/code.py", "src/compas_cem/ghpython/components/CompasCem_ConstraintTrailEdgeForce/code.py", "src/compas_cem/ghpython/components/CompasCem_ConstraintDeviationEdgeLength/code.py", "src/compas_cem/ghpython/components/CompasCem_ConstraintEdgeDirection/code.py"]}
{"id": "C81", "title": "Counters count", "statement": "number_of_support_nodes, number_of_loaded_nodes, number_of_trails, number_of_auxiliary_trails, number_of_trail_edges, number_of_deviation_edges, number_of_direct_deviation_edges and number_of_indirect_deviation_edges are the numbers of the things they name. Trail and deviation edges make up the edges, direct and indirect ones the deviation edges. If the topology is ready for form finding, there are as many trails as supports, and as many trail edges and trails as nodes. node_exists tells whether there is such a node.", "quantifier": "all reachable diagrams", "why_tests_cant": "Every history of calls.", "anchors": ["src/compas_cem/diagrams/diagram.py::Diagram.number_of_support_nodes", "src/compas_cem/diagrams/diagram.py::Diagram.number_of_loaded_nodes", "src/compas_cem/diagrams/topology/topology.py::TopologyDiagram.number_of_trails", "src/compas_cem/diagrams/topology/topology.py::TopologyDiagram.number_of_auxiliary_trails", "src/compas_cem/diagrams/topology/topology.py::TopologyDiagram.number_of_trail_edges", "src/compas_cem/diagrams/topology/topology.py::TopologyDiagram.number_of_deviation_edges", "src/compas_cem/diagrams/topology/topology.py::TopologyDiagram.number_of_direct_deviation_edges", "src/compas_cem/diagrams/topology/topology.py::TopologyDiagram.number_of_indirect_deviation_edges", "src/compas_cem/diagrams/mixins/node_mixins.py::NodeMixins.node_exists"]}
{"id": "C82", "title": "Results are those of the form", "statement": "The results components return the lengths and forces of the edges asked for, or of all edges, and the reaction forces at the nodes asked for, or at all supports, in order.", "quantifier": "all forms and all selections", "why_tests_cant": "All forms and selections.", "anchors": ["src/compas_cem/ghpython/components/CompasCem_ResultsEdges/code.py", "src/compas_cem/ghpython/components/CompasCem_ResultsSupportNodes/code.py"]}
{"id": "C83", "title": "The parts of a diagram fit together", "statement": "Every topology that the assembling component returns can be disassembled: into its nodes, its origins, its supports, its edges, its trail edges and deviation edges, which make up the edges, its sequences, each with the nodes of this sequence and together with all nodes, its trails, which end in supports and follow trail edges, and its auxiliary trails. If the trail edges that were drawn form chains, the trails are these chains. A form is disassembled into its nodes, supports and edges.", "quantifier": "all topologies that were assembled, all forms", "why_tests_cant": "All drawings and all histories.", "anchors": ["src/compas_cem/ghpython/components/CompasCem_DisassembleTopology/code.py", "src/compas_cem/ghpython/components/CompasCem_DisassembleForm/code.py", "src/compas_cem/ghpython/components/CompasCem_TopologyDiagram/code.py"]}
{"id": "C84", "title": "The drawing components draw what is selected", "statement": "The components that draw a form or a topology draw the nodes and the edges that are selected, or all; of these the origins, the supports, the trail edges and the deviation edges; the trails; and the arrows of the loads and the reactions at these nodes, with the scale and from the magnitude that are given, or 1 and 1e-3.", "quantifier": "all topologies and forms, all selections, scales and magnitudes", "why_tests_cant": "All diagrams and selections.", "anchors": ["src/compas_cem/ghpython/components/CompasCem_ArtistForm/code.py", "src/compas_cem/ghpython/components/CompasCem_ArtistTopology/code.py"]}
{"id": "C85", "title": "Constraint and parameter components ask for what they are given", "statement": "A constraint component returns a constraint that is worth the weight given (if not zero), or one, times the square of: the distance of the node from the point, line, plane (with a normal) or polyline given; the distance of the reaction from the vector given; the difference of the force in the trail edge or of the length of the deviation edge from the number given; the distance of the direction of the edge from that of the vector, in either sense. A parameter component returns a parameter for the coordinate, load component, force or length it names, that starts at its value in the topology and has the bounds given around it, or none. Without a node, an edge or a target there is no constraint, and without a node or an edge no parameter.", "quantifier": "all nodes, edges, targets, weights and bounds, all states", "why_tests_cant": "All geometries of targets and all states of equilibrium.", "anchors": ["src/compas_cem/ghpython/components/CompasCem_ConstraintNodePoint/code.py", "src/compas_cem/ghpython/components/CompasCem_ConstraintNodeLine/code.py", "src/compas_cem/ghpython/components/CompasCem_ConstraintNodePlane/code.py", "src/compas_cem/ghpython/components/CompasCem_ConstraintNodePolyline/code.py", "src/compas_cem/ghpython/components/CompasCem_ConstraintReactionForce/code.py", "src/compas_cem/ghpython/components/CompasCem_ConstraintTrailEdgeForce/code.py", "src/compas_cem/ghpython/components/CompasCem_ConstraintDeviationEdgeLength/code.py", "src/compas_cem/ghpython/components/CompasCem_ConstraintEdgeDirection/code.py", "src/compas_cem/ghpython/components/CompasCem_ParameterNodeOriginX/code.py", "src/compas_cem/ghpython/components/CompasCem_ParameterNodeOriginY/code.py", "src/compas_cem/ghpython/components/CompasCem_ParameterNodeOriginZ/code.py", "src/compas_cem/ghpython/components/CompasCem_ParameterNodeLoadX/code.py", "src/compas_cem/ghpython/components/CompasCem_ParameterNodeLoadY/code.py", "src/compas_cem/ghpython/components/CompasCem_ParameterNodeLoadZ/code.py", "src/compas_cem/ghpython/components/CompasCem_ParameterDeviationEdge/code.py", "src/compas_cem/ghpython/components/CompasCem_ParameterTrailEdge/code.py"]}
{"id": "C86", "title": "A diagram survives a file", "statement": "A topology diagram written to a JSON file and read back is the same diagram: it has the same nodes, edges, supports, loads, lookup table, trails and auxiliary trails, it answers every later call in the same way (also calls that ask for a trail by its key), and the forms found with it are the same. A form diagram comes back as it was.", "quantifier": "all topology and form diagrams, all later histories of calls, all settings of form finding", "why_tests_cant": "All diagrams with all keys, and all histories before and after the file.", "anchors": ["src/compas_cem/ghpython/components/CompasCem_JSONExportDiagram/code.py", "src/compas_cem/ghpython/components/CompasCem_JSONImportForm/code.py", "src/compas_cem/ghpython/components/CompasCem_JSONImportTopology/code.py", "src/compas_cem/diagrams/topology/topology.py::TopologyDiagram.trail", "src/compas_cem/diagrams/topology/topology.py::TopologyDiagram.shift_trail", "src/compas_cem/diagrams/topology/topology.py::TopologyDiagram.trails_sequences", "src/compas_cem/diagrams/topology/topology.py::TopologyDiagram.build_trails"]}
{"id": "C87", "title": "Optimized quantities stay within their bounds", "statement": "However an optimizer is used, with a solver that evaluates and returns only points within the bounds it is given, every quantity that is optimized stays within the bounds of its parameters around the value it had before, in the diagram and in the optimum that is reported, whatever the run returns or raises; everything else about the diagram stays what it was.", "quantifier": "all diagrams, parameters, constraints, settings, solvers that respect bounds, numbers of runs", "why_tests_cant": "All solvers and everything they may evaluate, including runs that raise.", "anchors": ["src/compas_cem/optimization/optimizer.py::Optimizer.solve", "src/compas_cem/optimization/optimizer.py::Optimizer.optimization_bounds", "src/compas_cem/optimization/optimizer.py::Optimizer._update_parameters", "src/compas_cem/optimization/parameters/parameter.py::Parameter.bound_low", "src/compas_cem/optimization/parameters/parameter.py::Parameter.bound_up", "src/compas_cem/optimization/nlopt.py::nlopt_solver"]}
{"id": "C88", "title": "Symmetric structures have symmetric forms", "statement": "If a rotation or mirroring with a translation takes the structure to itself - nodes, trails, edges with their kinds, lengths, forces and planes, loads, supports and sequences -, it takes the form that static equilibrium finds to itself in the same way: positions, reactions, forces and lengths. Nodes on an axis or plane of symmetry stay on it.", "quantifier": "all topologies that are ready for form finding, all motions and permutations of the nodes, all settings of form finding", "why_tests_cant": "All structures and all symmetries.", "anchors": ["src/compas_cem/equilibrium/force.py::static_equilibrium", "src/compas_cem/equilibrium/force.py::equilibrium_state", "src/compas_cem/equilibrium/force.py::node_equilibrium", "src/compas_cem/equilibrium/force.py::trail_vector_out"]}
{"id": "C89", "title": "Warnings of form finding tell what happened", "statement": "What is printed, and whether a callback is given, makes no difference to the form. Warnings name trail edges that have a plane. If there is no warning for a trail edge, its force has the sign of the length it was given, and it ends on its plane. If there is one, it is about the form that is returned: the force of the edge has the other sign, or the edge is parallel to its plane or starts on it, and has the length it was given.", "quantifier": "all topologies that are ready for form finding, all settings, all trail edges", "why_tests_cant": "All structures, and all passes of the iteration.", "anchors": ["src/compas_cem/equilibrium/force.py::static_equilibrium", "src/compas_cem/equilibrium/force.py::equilibrium_state", "src/compas_cem/equilibrium/force.py::trail_length_from_plane_intersection"]}
{"id": "C90", "title": "The callback runs once per iteration", "statement": "The function given as callback is called once in every iteration of form finding (and never if none is given), and the number of iterations that is printed at the end is the number of iterations made.", "quantifier": "all topologies that are ready for form finding, all settings, forms found and not found", "why_tests_cant": "All structures and numbers of iterations.", "anchors": ["src/compas_cem/equilibrium/force.py::static_equilibrium", "src/compas_cem/equilibrium/force.py::equilibrium_state"]}
{"id": "C91", "title": "A penalty of zero means that the form meets the constraints", "statement": "With positive weights the value of the objective is zero exactly when the form found with the variables meets all constraints - nodes are on their targets, edges have the lengths, forces and directions, supports the reactions asked for -, and a small value bounds how far it is from each. In particular, if solve reports a penalty of zero, the form it returns meets all constraints.", "quantifier": "all topologies, constraints of all kinds, parameters, variables and solvers", "why_tests_cant": "All geometries, goals and everything a solver may evaluate.", "anchors": ["src/compas_cem/optimization/optimizer.py::Optimizer.solve", "src/compas_cem/optimization/optimizer.py::Optimizer._optimize_form", "src/compas_cem/optimization/optimizer.py::Optimizer._calculate_penalty", "src/compas_cem/equilibrium/force.py::static_equilibrium", "src/compas_cem/equilibrium/force_numpy.py::static_equilibrium_numpy"]}
{"id": "C92", "title": "A topology stays sound when it is optimized", "statement": "However solving ends, also with an exception, the topology is one that could have been made by setting the coordinates, loads, forces and lengths of the parameters by hand: it is still a diagram built by calls of the API, it is ready for form finding if it was, and everything that holds for such diagrams holds for it.", "quantifier": "all topologies, parameters, constraints, settings and solvers, runs that succeed and runs that raise", "why_tests_cant": "All runs of a solver, including those that stop in the middle of an update.", "anchors": ["src/compas_cem/optimization/optimizer.py::Optimizer.solve", "src/compas_cem/optimization/optimizer.py::Optimizer._update_parameters", "src/compas_cem/optimization/optimizer.py::Optimizer._optimize_form"]}
{"id": "C93", "title": "Solving in another process gives what solving here gives", "statement": "Calling solve_proxy through a proxy, as the Grasshopper component does, gives the same objective, norm of the gradient, number of evaluations, status and form as calling it in the same process, and a topology diagram that has the same contents and answers in the same way; if solving raises, so does the call through the proxy.", "quantifier": "all topologies, constraints and parameters a user can make, all settings and solvers", "why_tests_cant": "All diagrams and everything a solver may evaluate; what comes back is a new object.", "anchors": ["src/compas_cem/optimization/proxy.py::solve_proxy", "src/compas_cem/ghpython/components/CompasCem_ConstrainedFormFinding/code.py", "src/compas_cem/optimization/constraints/constraint.py::Constraint.data", "src/compas_cem/optimization/constraints/constraint.py::FloatConstraint.data", "src/compas_cem/optimization/parameters/edge.py::EdgeParameter.data", "src/compas_cem/optimization/parameters/node.py::NodeParameter.data", "src/compas_cem/diagrams/topology/topology.py::TopologyDiagram.trails", "src/compas_cem/diagrams/topology/topology.py::TopologyDiagram.trail"]}
{"id": "C94", "title": "The form is the only structure that the topology asks for", "statement": "Without indirect deviation edges, the form is in static equilibrium, its origins are where the topology has them, its deviation edges have the given forces and its trail edges that carry a force have the given length and state or end on the given plane; and any structure that is so and whose trail edges all carry forces, however it was found, has the positions, forces and reactions of the form.", "quantifier": "all topologies that are ready for form finding and have no indirect deviation edges, all settings, all structures on the same nodes and edges", "why_tests_cant": "All structures that might compete with the form, over the real numbers.", "anchors": ["src/compas_cem/equilibrium/force.py::static_equilibrium", "src/compas_cem/equilibrium/force.py::equilibrium_state", "src/compas_cem/equilibrium/force.py::node_equilibrium", "src/compas_cem/equilibrium/force.py::trail_vector_out"]}
{"id": "C95", "title": "A form in equilibrium is final", "statement": "If the form returned is in static equilibrium, then form finding with more iterations and a threshold that is not larger returns the very same form, whatever indirect deviation edges there are; and a form that one more iteration with a threshold of zero leaves as it is, is in static equilibrium.", "quantifier": "all topologies that are ready for form finding, all settings", "why_tests_cant": "All structures and all numbers of iterations.", "anchors": ["src/compas_cem/equilibrium/force.py::static_equilibrium", "src/compas_cem/equilibrium/force.py::equilibrium_state"]}
{"id": "C96", "title": "Labels say what was asked for", "statement": "A text asked for by a tag is drawn for each node or edge that is shown, at the node or half way along the edge, and tells the thing named by the tag about that node or edge: its key, its coordinates, its type, its sequence, its force, its length or its combinatorial state. A dictionary of texts is used as it is given. If nothing is asked for, keys are shown. Viewer and plotter show the same numbers for a form, but for the sign of the force.", "quantifier": "all diagrams, all selections of nodes and edges, all tags and dictionaries, viewer and plotters", "why_tests_cant": "All diagrams; the drawing libraries are not there when tests run without a window.", "anchors": ["src/compas_cem/plotters/topologyartist.py::TopologyArtist._node_textlabel", "src/compas_cem/plotters/topologyartist.py::TopologyArtist._edge_textlabel", "src/compas_cem/plotters/formartist.py::FormArtist._node_textlabel", "src/compas_cem/plotters/formartist.py::FormArtist._edge_textlabel", "src/compas_cem/viewers/diagramobject.py::DiagramObject.node_text", "src/compas_cem/viewers/diagramobject.py::DiagramObject.edge_text", "src/compas_cem/viewers/diagramobject.py::DiagramObject.draw_nodetext", "src/compas_cem/viewers/diagramobject.py::DiagramObject.draw_edgetext"]}
{"id": "C97", "title": "Parts of a form are in balance", "statement": "If the nodes of a part of a form are in equilibrium, loads and reactions of the part and the forces of the edges that are cut to isolate it add up to zero, and so do their moments about any point (method of sections). A part that is not tied to the rest is in balance by itself; an edge that alone ties a part to the rest carries the resultant of its loads and reactions, which acts along that edge. Without indirect deviation edges, the trail edges from one sequence to the next carry all that acts above.", "quantifier": "all forms, all sets of nodes, all points", "why_tests_cant": "All structures and all ways of cutting them.", "anchors": ["src/compas_cem/equilibrium/force.py::static_equilibrium", "src/compas_cem/equilibrium/force.py::equilibrium_state", "src/compas_cem/equilibrium/force.py::node_equilibrium"]}
{"id": "C98", "title": "Virtual work and Maxwell's theorem", "statement": "A form is in static equilibrium exactly if for any displacements of its nodes the work of loads and reactions is the work of the edge forces on the elongations of the edges. So in equilibrium the sum of force times length over all edges, negative for compression, is the sum of the products of loads and reactions with the positions where they act, and loads and reactions do no work on a displacement as a rigid body.", "quantifier": "all diagrams, all displacements", "why_tests_cant": "All structures and infinitely many displacements.", "anchors": ["src/compas_cem/equilibrium/force.py::static_equilibrium", "src/compas_cem/equilibrium/force.py::equilibrium_state"]}
{"id": "C99", "title": "Settings of a viewer object are used as they were given", "statement": "The size of nodes, the scales and the tolerances of loads and reactions are what was assigned to them last, or what was given when the object was made, or the default if nothing was given, and reading or drawing does not change them; assigning None leaves them as they are.", "quantifier": "all objects, all settings and numbers, all sequences of assignments, readings and drawings", "why_tests_cant": "All histories of an object; the drawing library is not there when tests run without a window.", "anchors": ["src/compas_cem/viewers/diagramobject.py::DiagramObject.node_size", "src/compas_cem/viewers/diagramobject.py::DiagramObject.load_scale", "src/compas_cem/viewers/diagramobject.py::DiagramObject.load_tol", "src/compas_cem/viewers/diagramobject.py::DiagramObject.residual_scale", "src/compas_cem/viewers/diagramobject.py::DiagramObject.residual_tol"]}
{"id": "C100", "title": "An object added to the viewer shows the diagram", "statement": "Making an object for a diagram succeeds and draws every edge that is selected, once, as a cylinder from one of its nodes to the other with the width it was given and the color of its kind or state, and one arrow for each load and reaction above the tolerance; what is switched off is not drawn.", "quantifier": "all diagrams and forms, all selections of nodes and edges, all widths, scales and tolerances", "why_tests_cant": "All geometries; the drawing library is not there when tests run without a window.", "anchors": ["src/compas_cem/viewers/diagramobject.py::DiagramObject.__init__", "src/compas_cem/viewers/diagramobject.py::DiagramObject.draw_edges", "src/compas_cem/viewers/diagramobject.py::DiagramObject._edge_meshes", "src/compas_cem/viewers/diagramobject.py::DiagramObject.draw_loads", "src/compas_cem/viewers/diagramobject.py::DiagramObject.draw_residuals", "src/compas_cem/viewers/formobject.py::FormDiagramObject", "src/compas_cem/viewers/topologyobject.py::TopologyDiagramObject"]}
{"id": "C101", "title": "A viewer object shows what was assigned to it last", "statement": "After nodes, edges or another diagram are assigned to an object, drawings show the nodes and edges assigned last, in the places that they have in the diagram assigned last.", "quantifier": "all diagrams, all sequences of assignments, readings and drawings", "why_tests_cant": "All histories of an object.", "anchors": ["src/compas_cem/viewers/diagramobject.py::DiagramObject.diagram", "src/compas_cem/viewers/diagramobject.py::DiagramObject.nodes", "src/compas_cem/viewers/diagramobject.py::DiagramObject.edges", "src/compas_cem/viewers/diagramobject.py::DiagramObject.node_xyz", "src/compas_cem/viewers/diagramobject.py::DiagramObject.draw_nodes", "src/compas_cem/viewers/diagramobject.py::DiagramObject.draw_edges", "src/compas_cem/viewers/formobject.py::FormDiagramObject.edges_by_type", "src/compas_cem/viewers/topologyobject.py::TopologyDiagramObject.edges_by_type"]}
{"id": "C102", "title": "Small changes of the input make small changes of the form, and smooth ones smooth ones", "statement": "When the topology has no indirect deviation edges and no trail edge of length zero, and in its form every trail edge carries a force, no deviation edge has its ends in one place and no trail edge meets its plane exactly at the tolerance or starts on it, the positions, forces and reactions of the form depend continuously on the origins, loads, deviation forces, trail lengths and planes, and have derivatives wherever these have. The array program finds the form of the reference program for every input near enough, and so is continuous as well. At an unloaded trail edge, or at the tolerance, the form jumps.", "quantifier": "all topologies and forms with those conditions, all neighbouring topologies, all families of topologies with one parameter", "why_tests_cant": "Tests compare forms of a few inputs; continuity and derivatives are about all inputs nearby, and optimization by gradients relies on them.", "anchors": ["src/compas_cem/equilibrium/force.py::static_equilibrium", "src/compas_cem/equilibrium/force.py::equilibrium_state", "src/compas_cem/equilibrium/force.py::node_equilibrium", "src/compas_cem/equilibrium/force.py::trail_vector_out", "src/compas_cem/equilibrium/force.py::trail_length_from_plane_intersection", "src/compas_cem/equilibrium/force.py::deviation_edges_resultant_vector"]}
{"id": "C103", "title": "The finite-difference gradient tends to the derivatives of the penalty", "statement": "As the step shrinks, the gradient that the optimizer computes by finite differences at a point tends to the partial derivatives of the penalty at that point, whatever was evaluated before, when the topology has no indirect deviation edges, the form at that point is sound (all trail edges carry forces, no deviation edge has its ends in one place), no trail edge meets its plane at the tolerance, and no constraint is at a kink (an edge whose ends are in one place or that is square to the direction asked for; a polyline with two points equally near to its node). At the tolerance, the gradient may grow without bound instead; between two equally near points of a polyline the differences with positive and negative steps stay apart.", "quantifier": "all optimizers with any parameters and any constraints, all topologies and points with those conditions, all small steps", "why_tests_cant": "Tests compare gradients with a few numbers at one step; that the numbers approach the derivatives is about all small steps, all structures and all points.", "anchors": ["src/compas_cem/optimization/grad.py::grad_finite_differences", "src/compas_cem/optimization/optimizer.py::Optimizer._optimize_form", "src/compas_cem/optimization/optimizer.py::Optimizer._update_parameters", "src/compas_cem/optimization/optimizer.py::Optimizer._calculate_penalty", "src/compas_cem/equilibrium/force.py::static_equilibrium"]}
{"id": "C104", "title": "What is printed is true", "statement": "Whether the optimizer is asked to print makes no difference for what it does. The numbers of parameters, constraints and evaluations, the final value, the norm of the gradient and the status that a run prints are those the optimizer holds afterwards; a run that is not asked to print tells only that it failed or stopped on roundoff errors, and the warnings of form finding. The text of an optimizer shows how its last run ended, the text of an edge its magnitude and state, the text of a diagram how many nodes, edges and trails it has.", "quantifier": "all optimizers and topologies, all solvers and whatever way a run ends, all edges and all diagrams", "why_tests_cant": "All solvers and all ways to end a run, also exceptions; tests do not read what is printed.", "anchors": ["src/compas_cem/optimization/optimizer.py::Optimizer.solve", "src/compas_cem/optimization/optimizer.py::Optimizer.__repr__", "src/compas_cem/elements/trail.py::TrailEdge.__repr__", "src/compas_cem/elements/deviation.py::DeviationEdge.__repr__", "src/compas_cem/diagrams/diagram.py::Diagram.__repr__", "src/compas_cem/diagrams/topology/topology.py::TopologyDiagram.__repr__"]}
{"id": "C105", "title": "A node is found where the optimizer has moved it", "statement": "After solving, a node that was found by its coordinates before is found by its coordinates; locations it has left do not find it any more; an edge drawn from its location starts at it.", "quantifier": "all topologies, parameters (of origins and of other things), constraints, settings and solvers, runs that succeed and runs that raise, all locations", "why_tests_cant": "All runs of a solver on all topologies; tests never search a topology after optimizing it.", "anchors": ["src/compas_cem/optimization/optimizer.py::Optimizer._update_parameters", "src/compas_cem/optimization/optimizer.py::Optimizer.solve", "src/compas_cem/diagrams/mixins/node_mixins.py::NodeMixins.node_key"]}
