# A Rocq model of compas_cem

This directory holds a formal model of `arpastrana/compas_cem` (source in `/repo`)
and machine-checked proofs of the properties in `properties.jsonl`.
`MANIFEST.json` maps every property to its theorems, `ASSUMPTIONS.md` lists what
`Print Assumptions` says about each of them, and `seeded/LOG.jsonl` records the wrong
programs the theorems were tried on.

## 1. Approach

* The model is a set of total, computable Gallina functions that follow the Python
  code function by function and branch by branch.  Exceptions are values
  (`Ok`/`Err`); methods that mutate a diagram return the new diagram *also when
  they raise*, so partial effects of failing calls are visible.
* Python dictionaries are insertion-ordered association lists (`Py.v`), because the
  order of iteration is observable (trail search, automatic numbering, ...).
  The iteration order of Python *sets* is unspecified: it is a parameter, and the
  theorems quantify over all orders.
* Unbounded `while` loops carry fuel with an explicit out-of-fuel error, and a
  theorem shows that this error never occurs for the fuel the model supplies.
* Scalars: the model is generic in a record of scalar operations (`NumOps`).
  - Theorems about structure (keys, frames, order, iteration, errors) hold for every
    `NumOps`, hence for IEEE floats.
  - Theorems of statics/geometry use the instance over Coq's real numbers.
  - The instance over primitive binary64 floats runs the model (`vm_compute`) on
    the fixtures of `/repo/tests` and on counterexamples, including NaN.
* Model files contain no proofs; specifications (`Spec*.v`) do not mention the
  model's helpers; the theorems live in `Prop_*.v` files that contain only
  statements closed by a lemma, an example showing that the hypotheses can be met by
  a non-trivial case, and `Print Assumptions`.  The `Prop_*.v` files are generated
  from `tools/Prop_*.v.in` by `tools/gen_props.py` (the statement is copied from the
  lemma) and are committed.
* A property that is false of the code is kept in its intended form; the theorem
  `..._refuted` gives a concrete counterexample on the model and `..._partial` the
  strongest version found to hold.  Such a property has status `partial`.

## 2. Files (rocq/theories)

Model:

| file | models |
|---|---|
| `Py.v` | Python results, exceptions, ordered dictionaries, loops |
| `Num.v` | scalars and 3-vectors, instances for R and binary64; `math`, vector functions of `compas.geometry` |
| `Diagram.v` | `diagrams/diagram.py`, `diagrams/mixins/*.py`, `elements/*.py`, `loads/node.py`, `supports/node.py`, and the part of `compas.datastructures.Network` they use |
| `Topology.v` | `diagrams/topology/topology.py` |
| `History.v` | one constructor per public mutator; all finite call sequences |
| `Equilibrium.v` | `equilibrium/force.py`, `diagrams/form.py` |
| `Messages.v` | `equilibrium/force.py`, with what it prints and the calls of the callback |
| `SolveOut.v` | `optimization/optimizer.py`, with what `solve` prints; `__repr__` of optimizers, edges and diagrams |
| `EquilibriumNp.v` | `equilibrium/force_numpy.py` |
| `Constraints.v` | `optimization/constraints/*.py` without `mesh.py` |
| `Optimizer.v` | `optimization/parameters/*.py`, `grad.py`, `objective_func.py`, `nlopt.py`, `optimizer.py` |
| `Serialize.v` | `data` of parameters and constraints, `to_data`/`from_data`, JSON text of keys |
| `Files.v` | `to_json`/`from_json` of diagrams as trees, calls and form finding on a diagram that was read (`ghpython/components/CompasCem_JSON*`, `examples/03_bridge_2d.json`) |
| `Remote.v` | `optimization/proxy.py` through `compas.rpc` (`ghpython/components/CompasCem_ConstrainedFormFinding`): what travels, and solving with a diagram that was read |
| `Mesh.v` | `diagrams/topology/mesh_mixins.py` |
| `Artists.v` | `plotters/*artist.py`, `viewers/*object.py`, `ghpython/artists.py`: what is handed to the drawing library |
| `Labels.v` | text labels of plotters and viewer |
| `ViewerObject.v` | viewer objects with their settings and caches: making one, getters, setters, drawing points, lines, cylinders and arrows |
| `Components.v` | `ghpython/components/*/code.py` |
| `Fixtures.v` | `tests/conftest.py` |

Specification (public vocabulary of the theorems): `SpecDiagram`, `SpecTopology`,
`SpecEquilibrium`, `SpecStatics`, `SpecTransform`, `SpecNumpy`, `SpecConstraints`,
`SpecOptimizer`, `SpecSerialize`, `SpecMesh`, `SpecArtists`, `SpecInfluence`, `SpecComponents`, `SpecGoals`, `SpecFiles`, `SpecBounds`, `SpecSymmetry`, `SpecMessages`, `SpecReport`, `SpecMet`, `SpecHand`, `SpecRemote`, `SpecFloats`, `SpecLabels`, `SpecSections`, `SpecViewer`, `SpecUnique`, `SpecSmooth`, `SpecGradient`.

Lemmas: `PyFacts`, `RVec` (vectors over R), `DiagramFacts`, `HistoryFacts`,
`TopologyFacts`, `BuildFacts`, `ChainFacts`, `ChainFacts2`, `WeldFacts`, `EqFacts`,
`FormFacts`, `TypedFacts`, `StaticsFacts`, `NpFacts`, `ConFacts`, `OptFacts`.
Proofs of the properties: `DiagramThms`, `TopologyThms`, `SequenceThms`, `QueryThms`,
`ReadyThms`, `EqThms`, `CoordsThms`, `StaticsThms`, `TransformThms`, `FloatThms`,
`InfluenceThms`, `IterThms`, `NpThms`, `ConThms`, `OptThms`, `SolveThms`, `ReportThms`, `SerializeThms`,
`MeshThms`, `ArtistThms`, `ComponentThms`, `SettingThms`, `CountThms`, `PartThms`, `SketchThms`, `GoalThms`, `FilesThms`, `BoundThms`, `SymmetryThms`, `MessageThms`, `PrintThms`, `HandThms`, `MetThms`, `RemoteThms`, `FloatFacts`, `UniqueThms`, `RestThms`, `SmoothThms`, `PolyThms`, `GradientThms`, `SmoothNpThms`.

Concrete instances: `Witness`, `WitnessEq`, `WitnessNp`, `WitnessCon`, `WitnessOpt`,
`WitnessDraw`, `WitnessInfluence`, `WitnessComponents`, `WitnessFiles`, `WitnessBounds`, `WitnessSymmetry`, `WitnessMessages`, `WitnessMet`, `WitnessRemote`, `WitnessUnique`.  `RunTests.v` executes the repository's test-suite (with both form finding programs) on the model.

Theorems: `Prop_Diagram`, `Prop_Topology`, `Prop_Equilibrium`, `Prop_Numpy`,
`Prop_Constraints`, `Prop_Optimization`, `Prop_Data`, `Prop_Drawing`, `Prop_Influence`, `Prop_Messages`,
`Prop_Components`, `Prop_Files`, `Prop_Bounds`.

## 3. Plan per property

| id | modelled by | proof |
|---|---|---|
| C01 | `Diagram`, `Topology`, `History`: all mutators as one step function over histories | invariant, induction over histories |
| C02, C03, C05, C07, C08, C09 | `Diagram` | case analysis on the mutators, dictionary lemmas, the invariant of C01 |
| C04 | `Diagram`, histories with the log of placements | invariant; rounding over R for the distance |
| C06 | `Diagram`: fold of `add_edge` over lines | induction over the list of lines |
| C10 | `Diagram` | positive part proved; last clause refuted by execution |
| C11 | `Topology.build_trails` with fuel | measure: number of unvisited nodes |
| C12, C13, C19 | `Topology.build_trails` | loop invariants of the walk and of the loop over supports |
| C14, C17, C61 | `Topology.build_trails` | chain specification, induction along the chain |
| C15, C16, C18, C59 | `Topology.build_trails` | refuted by execution; partial versions from the chain lemmas (C18: refuted in general) |
| C20 - C24, C67 | queries of `Topology` and `Diagram` | list lemmas, invariant that edges are typed |
| C25 - C27 | `Equilibrium` over R | algebra |
| C28, C29, C31 - C36, C38, C40 | `Equilibrium` over R | invariant of one sweep: every node is visited once, the positions seen at a visit are final or those of the previous sweep |
| C30, C39, C58 | `Equilibrium` | refuted by execution; the exact behaviour proved |
| C37 | `Equilibrium` | fold invariants |
| C41 | `EquilibriumNp` against `Equilibrium` | step-wise equality, induction over the schedule and over the iterations |
| C42, C43, C62, C63, C64 | `Equilibrium` over R | relational induction over the schedule, for similarity maps of space and scaling of forces |
| C44 - C47 | `Optimizer` | algebra, frame lemmas, induction over histories of evaluations |
| C48 - C51 | `Constraints` over R | geometry of closest points |
| C52, C54 | `Optimizer` | refuted by execution; exact conditions proved |
| C53, C68, C69 | `Optimizer`; NLopt is an arbitrary strategy | case analysis, induction over the strategy |
| C55 | `Serialize` | decimal codec round trip; refuted for two kinds of targets |
| C56 | `Mesh` | list lemmas, fold of `add_edge` |
| C57 | `Artists` over R | algebra, induction; refuted for the plotter |
| C60 | `Diagram` | refuted by execution; what a failing call leaves behind is bounded |
| C65 | `Equilibrium` over binary64 | refuted by execution; partial by the specification of float comparisons |
| C66 | `Equilibrium` | relational induction over the schedule |
| C70 - C73 | `Artists` | fold lemmas; each refuted in a corner by execution |
| C74, C75 | `Equilibrium` | relational induction along the trails, for a relation between the nodes of two topologies; C74 refuted by execution with indirect edges |
| C76 | `Equilibrium` | induction over the passes; refuted by execution if the last move equals the threshold |
| C77, C79 | `Components` over `Diagram` and `Topology` | fold invariants over the lists of inputs, C06 and C61; C79 refuted by execution for reversed lines |
| C78 | `Components` | induction over the list of origins, frame lemmas; refuted by execution: the lookup is stale |
| C80, C82 | `Components` | case analysis, list lemmas; C80 refuted by execution for zeros |
| C81 | `Diagram`, `Topology` | lengths of filters without duplicates, C61; refuted by execution: `node_exists` on keys |
| C83 | `Components` over `Topology` | C61, C67, C81: partitions of nodes and edges; refuted by execution for topologies without supports |
| C84 | `Components` over `Artists` | C70 and C72 for the selection handed on; refuted by execution if no support is selected and for a zero scale |
| C85 | `Components` over `Constraints` and `Optimizer` | C48 and C44 for the goals and quantities of each component |
| C86 | `Files`, `Serialize` over `Topology`, `History`, `Equilibrium` | reading inverts writing, container by container; simulation between the diagram and the object under an injective renaming of trail keys, over all later calls; refuted by execution for trails by key |
| C87 | `Optimizer` | C45, C54, C69 for the last point the solver evaluates, over R; induction over the runs; refuted by execution for two parameters of one quantity and for two runs |
| C88 | `Equilibrium` over R | C42 and C74 for the moved topology; a relation that maps a finite set injectively into itself is onto; refuted by execution with indirect edges |
| C89 | `Messages`: form finding that collects what it prints | dropping the messages gives `Equilibrium`; what is said in a pass is a function of where it ends; over R as C28, C30; refuted by execution with indirect edges |
| C90 | `Messages` | one call per node of the schedule that is no support, counted with C81; refuted by execution |
| C91 | `Optimizer`, `Constraints`, `EquilibriumNp` | the containers of the array program cover those of the reference program (invariant of the sweeps), so the form shows what the penalty reads; sums of squares; with C41 and C92 for the form solve returns; refuted by execution |
| C92 | `Optimizer`, `History` | every write of a run is a call of the API on an addressed quantity; induction on the writes; C61 keeps readiness |
| C93 | `Remote`, `Serialize`, `Files` | simulation: every computation of the solver on the object that was read follows that on the diagram (induction on the strategy); C55 and C86 for what travels; refuted by execution |
| C94 | `Equilibrium` | `SpecUnique.structure` states what the topology asks for without the algorithm; two structures agree sequence after sequence (balance fixes the pull of the outgoing edge, the edge its far end); the form is one by C28 - C31 |
| C95 | `Equilibrium` | in a form in balance the vector seen at the visit of a node is the one of the final positions, so that a further pass writes what is there; then no displacement stops the iteration later than before |
| C96 | `Labels` | `SpecLabels.node_says`, `edge_says`: which text is right for a tag; table of formatters, case by case; loops that fill dictionaries as in C71; `_refuted` for the viewer's types and states and for dictionaries in plotters |
| C97 | `Equilibrium` | sums over the nodes of a part and its edges exchanged: both pulls of an inner edge cancel, those of cut edges remain; levels: without indirect edges only trail edges leave a level |
| C98 | `Equilibrium` | the same exchange of sums for products with displacements; for the converse, one node is displaced along its unbalanced force |
| C99 | `ViewerObject` | `SpecViewer.shows`: what a user reads; every use keeps the attribute of a setting unless it assigns it (invariant over sequences of uses); `_refuted` for zero |
| C100 | `ViewerObject` | `SpecViewer.cylinders_of`, `around`: the axis of the cylinder ends at the two nodes; composition of C71 (groups, colors, widths) and C70, C72 (arrows) along the constructor |
| C101 | `ViewerObject` | invariants of the caches over sequences of uses; `_refuted` where a cache is stale |
| C102 | `Equilibrium` over the reals | by induction over the sequences, from C94 (the form is the structure asked for), once for everything closed under sums, products, quotients and roots; then for continuity and for derivatives; forms near a sound form are sound, so C41 carries continuity over to the array program; two families of bars show where forms jump |
| C103 | `Optimizer`, `Constraints`, `EquilibriumNp` over the reals | the topology as a function of one variable has smooth inputs (C45), so its form is smooth (C102); the array program finds that form (C41) and every penalty but that of polylines is built from sums, products, quotients and roots; the squared distance to a polyline lies between two functions with the same derivative when its nearest point is the only one (`PolyThms`); a bar at the tolerance of its plane shows a gradient without bound, and a bar between two sides of a polyline shows differences that do not meet |
| C104 | `SolveOut` (`Optimizer` with what it prints; `Messages` for the form found last) | case analysis over the ways a run can end; the run with printing has the outcome of the run without (C89 for form finding); counts by C67 and C81; the text of an optimizer after a failing run is refuted on the braced tower |
| C105 | `Optimizer`, `Diagram` | every evaluation writes the quantities of parameters only (C92), so the lookup is that of before; refuted for moved origins on the braced tower |

## 4. Trusted base

### 4.1 Kernel and axioms

* The Coq 8.16.1 kernel, including its virtual machine (`vm_compute`) and primitive
  64-bit integers and floats, which are used for counterexamples and examples only,
  except in `C65_exhausted_partial`, `C55_finite`, `C04_*_float` and `C40_lengths_float`.
* No axiom, parameter, functor or module type is declared in this development, no
  kernel check is switched off and nothing is admitted.  `Print Assumptions` follows
  every theorem in `Prop_*.v`; `ASSUMPTIONS.md` has the output by theorem:
  - *closed under the global context*: the structural theorems;
  - `ClassicalDedekindReals.sig_forall_dec`, `ClassicalDedekindReals.sig_not_dec`,
    `FunctionalExtensionality.functional_extensionality_dep` (Coq's construction of
    the real numbers): theorems about forces, positions and distances;
  - the primitive types and operations of `PrimInt63` and `PrimFloat` (constants of
    the kernel without a body): refutations by execution on floats;
  - the specification of float operations in `Coq.Floats.FloatAxioms`:
    `C65_exhausted_partial`, `C55_finite`, `C04_rounding_float`, `C04_lookup_float`, `C40_lengths_float`.

### 4.2 Libraries that are not in /repo

The dependencies are not available, so their behaviour is an assumption:

* `compas` 1.x `Network`: `add_node` with key `None` numbers from the largest integer
  key, `add_edge` creates missing ends and merges attributes, attribute views fall back to
  the defaults, `neighbors`/`connected_edges` read the half-edge table,
  `nodes_where`/`edges_where` filter in insertion order, `copy` is deep.
* `compas.geometry`: vector functions by their formulas (`normalize_vector` of a zero
  vector is the zero vector), `geometric_key` rounds to N decimals and
  identifies the two zeros; closest-point functions by their defining formulas;
  `to_data`/`from_data` of points, lines, planes are inverse to each other and plane normals are unit
  vectors; `Data.from_data` is `cls()` followed by `data = ...`.
* `numpy`: arrays are lists, reductions are left folds over R (the proofs about it are over R).
* `nlopt`: an arbitrary strategy tree that evaluates the objective any number of times and
  then returns a point and a status or raises; exceptions of the objective propagate.
  `autograd` is an arbitrary function.
* `repr`/`float` and `literal_eval` of a float are inverse (floats are tokens in the text).
* `Data.to_json`/`from_json` of a diagram: the shape of `examples/03_bridge_2d.json`, node keys by `repr` and
  `literal_eval`, `attributes` as they are; Python's `json` turns tuples into lists and integer keys into text and
  keeps the order and the numbers.
* `compas.rpc`: objects are written as their `data` and read by `from_data` of their class, through JSON; an exception of the server reaches
  the caller (as an `RPCServerError` with its text, here as the exception).  In C93, `autograd` calls the function it is given and does not look at the diagram.
* `compas_plotters`, `compas_view2`, `compas_ghpython`, Rhino: only what they are given is modelled.
* `compas_singular` (`QuadMesh`, `collect_polyedges`): the polyedges are an input.

### 4.3 Modelled and not modelled

Everything in `src/compas_cem` that is not listed here is modelled:

* `verbose` output of the numpy program, the vectors in the warnings of form finding, a `callback` that changes the topology, `__repr__` of nodes, supports, loads, constraints and parameters, rounding and timing in what `solve` prints;
* `optimization/constraints/mesh.py` (`TrimeshConstraint`): not exported, and importing it fails, as it imports a module that does not exist;
* `plotters/proxy.py`: not exported, and its functions import names that do not exist; starting and stopping of a proxy and its sockets;
* rounding in text labels, zorder, sizes in the plotters, what a viewer makes of the points, lines and meshes it is given;
* of `ghpython/components/*`: conversion from and to Rhino geometry, messages, `Info`, `Proxy`, `ArtistColors`,
  `ghpython/install.py`, `uninstall.py`, `register.py` files.

Simplifications that the comments in the model mention: keys of nodes are integers; coordinates
have three components; attributes a class does not use are not stored; the topology given to
`static_equilibrium` is a value, so that it is not modified holds by construction
(the code works on a copy).

## 5. Findings

The following properties, as a user would state them, are false of the code, and the counterexamples run on
the model: C10 (old location still finds a moved node), C15, C16, C18, C59 (trail construction on
topologies that are not chains, or called twice), C30 (planes can flip the state), C39 (`kmax`), C52 (removing a
parameter), C54 (`solve` returns the form of the last evaluation, with default settings), C55 (plain
list targets), C57, C70, C71, C72, C73, C96 (drawing, labels), C99 (a setting of zero), C101 (stale caches of a viewer object), C58 (coordinate lookup in forms),
C60 (failing `add_edge`), C74 (order of trails, with indirect
edges), C76 (more passes lose a form in one corner), C78 (a moved origin is not
found), C79 (edges searched against their direction), C80 (a given zero is replaced by the default), C81 (`node_exists` on keys), C83 (a topology without
supports cannot be disassembled), C84 (drawing components), C86 (trails of a diagram read from a file cannot be asked for by key), C87 (bounds of
parameters are not kept by two parameters of the same quantity, or by two runs), C88 (symmetry, with indirect edges), C89 (warnings of early passes), C90 (the callback runs per trail edge, and the number of iterations printed is one less), C104 (the text of an optimizer after a run that failed), C105 (an origin moved by the optimizer is found at its old place only), C91 (a reported penalty of zero with a form that misses its target), C93 (targets given as plain coordinates cannot be sent to another process, and the
topology that comes back cannot be asked for a trail), C65 (NaN coordinates reported as converged).  `MANIFEST.json` has the details.

## Known gap found by a wrong program

`seeded/LOG.jsonl`, k128: a setter of the auxiliary trail length that also clears the
auxiliary trail vector was not rejected. It was tried against `CountThms`, `Prop_Topology`,
`PrintThms` and `HandThms` only. C17 says what `build_trails` makes of the length and the
vector that the topology has, but none of the theorems tried says that setting one keeps the other.
