(** * Properties of drawings (C57, C70 - C73)

    Generated by tools/gen_props.py from the lemmas of ArtistThms.v and
    WitnessDraw.v.  The vocabulary is in SpecArtists.v. *)

From Coq Require Import String List ZArith Bool Permutation Floats Reals Lra.
From Verif Require Import Py PyFacts Num Diagram DiagramFacts Topology Equilibrium History Fixtures SpecDiagram SpecTopology SpecEquilibrium
  RVec SpecStatics Artists SpecArtists ArtistThms Witness WitnessEq WitnessDraw.
Import ListNotations.
Open Scope Z_scope.

(** ** Edge widths *)

(** The widths given by a pair go from the first number, for the edge with the smallest
  force in magnitude, to the second one, for the largest, in proportion. *)
Theorem C57_range : forall (d : diagram R) es prev low high, es <> [] -> forces_known d es ->
  exists w m M, viewer_set_width d es prev (WRange low high) = Ok (Some w)
    /\ plotter_set_width d es None (WRange low high) = Ok (Some w)
    /\ keyed w es /\ force_range d es m M
    /\ forall e f, In e es -> edge_force d e = Ok f -> exists x, dget w e = Some x /\ proportional low high m M f x.
Proof. exact c57_range. Qed.
(** The widths are between the two numbers, in the order of the forces, and both numbers
  occur unless all the forces are equal in magnitude. *)
Theorem C57_order : forall (d : diagram R) es prev low high w, (low <= high)%R -> es <> [] -> forces_known d es ->
  viewer_set_width d es prev (WRange low high) = Ok (Some w) ->
  (forall e f x, In e es -> edge_force d e = Ok f -> dget w e = Some x ->
     (low <= x <= high)%R
     /\ forall e' g y, In e' es -> edge_force d e' = Ok g -> dget w e' = Some y -> (Rabs f <= Rabs g)%R -> (x <= y)%R)
  /\ (exists e, In e es /\ dget w e = Some high)
  /\ ((exists e, In e es /\ dget w e = Some low)
      \/ forall e e' f g, In e es -> In e' es -> edge_force d e = Ok f -> edge_force d e' = Ok g -> Rabs f = Rabs g).
Proof. exact c57_order. Qed.

(** ** Arrows *)

(** The arrows of the loads are those of the nodes whose load is not below the tolerance;
  each is the scaled load and leaves its node, after a gap where there is one. *)
Theorem C70_loads : forall (d : diagram R) ns scale tol, (forall n, In n ns -> In n (nodes d)) -> (0 <= scale)%R ->
  (exists l, viewer_loads d ns scale tol = Ok l
     /\ arrows_of d Load (nodup Z.eq_dec ns) scale tol (fun _ => 0%R) (fun _ => false) l)
  /\ (forall size, exists l, plotter_loads d ns (fun n => Ok (size n)) scale tol = Ok l
     /\ arrows_of d Load ns scale tol size (fun _ => false) l)
  /\ (forall gap, ns <> [] -> exists l, gh_loads d (Some ns) scale gap tol = Ok l
     /\ arrows_of d Load ns scale tol (fun _ => gap) (fun _ => false) l)
  /\ (forall gap, exists l, gh_loads d None scale gap tol = Ok l
     /\ arrows_of d Load (nodes d) scale tol (fun _ => gap) (fun _ => false) l).
Proof. exact c70_loads. Qed.
(** The arrows of the reactions arrive at their nodes where the most loaded edge is in
  compression, and leave them otherwise. *)
Theorem C70_reactions : forall (d : diagram R) ns scale tol, held_by_edges d ns -> (0 <= scale)%R ->
  exists arrives, (forall n, In n ns -> exists f, leads d n f /\ (arrives n = true <-> (f < 0)%R))
  /\ (exists l, viewer_residuals d ns scale tol = Ok l
        /\ arrows_of d Reaction (nodup Z.eq_dec ns) scale tol (fun _ => 0%R) arrives l)
  /\ (forall size, held_by_edges d (nodes d) -> exists l, plotter_reactions d ns (fun n => Ok (size n)) scale tol = Ok l
        /\ arrows_of d Reaction ns scale tol size arrives l)
  /\ (forall gap, ns <> [] -> exists l, gh_reactions d (Some ns) scale gap tol = Ok l
        /\ arrows_of d Reaction ns scale tol (fun _ => gap) arrives l).
Proof. exact c70_reactions. Qed.
(** In a form in equilibrium, the arrow of the reaction of a node without load that has a
  single edge does not cover the edge: it is drawn on the other side of the node. *)
Theorem C70_outside : forall (d : diagram R) ns scale tol n e a, held_by_edges d ns -> (0 <= scale)%R -> In n ns ->
  connected_edges d n = Ok [e] -> incident d n = [e] -> load d n = v0 -> unbalanced d n = v0 ->
  (forall l, viewer_residuals d ns scale tol = Ok l -> In (n, a) l -> beyond d n e (a_start a) /\ beyond d n e (a_end a))
  /\ (forall size l, held_by_edges d (nodes d) -> (forall m, 0 <= size m)%R ->
        plotter_reactions d ns (fun n => Ok (size n)) scale tol = Ok l -> In (n, a) l ->
        beyond d n e (a_start a) /\ beyond d n e (a_end a))
  /\ (forall gap l, (0 <= gap)%R -> gh_reactions d (Some ns) scale gap tol = Ok l -> In (n, a) l ->
        beyond d n e (a_start a) /\ beyond d n e (a_end a)).
Proof. exact c70_outside. Qed.

(** ** Colors *)

(** The colors of the drawings are all different. *)
Theorem C71_palette : NoDup [red; blue; gray; white; black; green; violet; purple; lime; coral; orange].
Proof. exact c71_palette. Qed.
(** The plotter draws the edges of a form by the sign of their force. *)
Theorem C71_plotter_form : forall d : diagram R, forces_known d (edges d) ->
  exists m, plotter_form_edges d = Ok m /\ keyed m (edges d)
    /\ forall e, In e (edges d) -> exists c, dget m e = Some c /\ stressed d gray e c.
Proof. exact c71_plotter_form. Qed.
(** The viewer draws the edges of a form in two groups, with tension and compression in
  different colors; an edge without force is drawn as one in tension. *)
Theorem C71_viewer_form : forall (d : diagram R) es, forces_known d es ->
  (exists m, viewer_form_edges d es = Ok m /\ keyed m es
     /\ forall e, In e es -> exists c, dget m e = Some c /\ stressed d red e c)
  /\ exists out, viewer_draw_form d es = Ok out /\ drawn_as es out (stressed d red).
Proof. exact c71_viewer_form. Qed.
(** By default the plotter draws the edges of a topology by the sign of their length or force. *)
Theorem C71_state : forall (d : diagram R) es, produced d -> (forall e, In e es -> In e (edges d)) ->
  exists m, state_colors d es = Ok m /\ keyed m es /\ forall e, In e es -> exists c, dget m e = Some c /\ state d e c.
Proof. exact c71_state. Qed.
Print Assumptions C57_range.
Print Assumptions C57_order.
Print Assumptions C70_loads.
Print Assumptions C70_reactions.
Print Assumptions C70_outside.
Print Assumptions C71_palette.
Print Assumptions C71_plotter_form.
Print Assumptions C71_viewer_form.
Print Assumptions C71_state.

Section Generic.
  Context {T : Type} `{NumOps T}.
  Implicit Types (d : diagram T) (w : dict ekey T).

  (** A dictionary is used as it is, and a number gives that width to all edges. *)
  Theorem C57_same : forall d es prev w (x : T),
    viewer_set_width d es prev (WDict w) = Ok (Some w)
    /\ (w <> [] -> plotter_set_width d es prev (WDict w) = Ok (Some w))
    /\ (exists w', viewer_set_width d es prev (WNumber x) = Ok (Some w') /\ keyed w' es
          /\ forall e, In e es -> dget w' e = Some x)
    /\ (edges d <> [] -> exists w', plotter_set_width d es prev (WNumber x) = Ok (Some w') /\ keyed w' (edges d)
          /\ forall e, In e (edges d) -> dget w' e = Some x).
  Proof. exact c57_same. Qed.
  (** In the viewer, an edge without a width of its own has the default width. *)
  Theorem C57_default : forall (es : list ekey) (default : T) e, In e es ->
    dget (viewer_width es default None) e = Some default
    /\ dget (viewer_width es default (Some [])) e = Some default.
  Proof. exact c57_default. Qed.
  (** The plotter takes no notice of a pair of widths once there are widths. *)
  Theorem C57_ignored : forall d es w (low high : T), w <> [] ->
    plotter_set_width d es (Some w) (WRange low high) = Ok (Some w).
  Proof. exact c57_ignored. Qed.
  (** The plotter cannot be given a width when the diagram has no edges. *)
  Theorem C57_no_edges : forall d es (x : T), edges d = [] ->
    plotter_set_width d es None (WNumber x) = Err TypeError.
  Proof. exact c57_no_edges. Qed.
  (** There is no range of forces without edges. *)
  Theorem C57_empty : forall d prev (low high : T),
    viewer_set_width d [] prev (WRange low high) = Err (ValueError "min() arg is an empty sequence").
  Proof. exact c57_empty. Qed.
  (** An edge looks one way. *)
  Theorem C71_one_look : forall d e c c', produced d -> looks d e c -> looks d e c' -> c = c'.
  Proof. exact c71_one_look. Qed.
  (** The viewer, and the plotter on request, draw every edge of a topology in the color
      of its kind; the viewer in at most four groups that make up the edges. *)
  Theorem C71_topology : forall d es, produced d -> drawable d -> (forall e, In e es -> In e (edges d)) ->
    (exists m, type_colors d es = Ok m /\ keyed m es /\ forall e, In e es -> exists c, dget m e = Some c /\ looks d e c)
    /\ exists out, viewer_draw_topology d es = Ok out /\ drawn_as es out (looks d).
  Proof. exact c71_topology. Qed.
  (** Nodes are drawn by what they are: supports, origins or neither. *)
  Theorem C71_nodes : forall d ns, produced d -> (forall n, In n ns -> In n (nodes d)) ->
    (exists m, viewer_topology_nodes d ns = Ok m /\ node_colors d ns m green violet black)
    /\ (exists m, plotter_topology_nodes d ns = Ok m /\ node_colors d ns m green violet white)
    /\ (exists m, viewer_form_nodes d ns = Ok m /\ node_colors d ns m green black black)
    /\ (exists m, plotter_form_nodes d ns = Ok m /\ node_colors d ns m green white white).
  Proof. exact c71_nodes. Qed.
  (** Trail edges are solid lines and deviation edges are dashed. *)
  Theorem C71_lines : forall d es, produced d -> (forall e, In e es -> In e (edges d)) ->
    exists l, line_styles d es = Ok l
      /\ Forall2 (fun e solid => (solid = true <-> In e (trail_edges d)) /\ (solid = false <-> In e (deviation_edges d))) es l.
  Proof. exact c71_lines. Qed.
  (** Crosses are drawn at the loaded nodes that are drawn. *)
  Theorem C71_crosses : forall d ns m, produced d ->
    exists l, crosses d ns m = Ok l /\ NoDup l
      /\ forall n, In n l <-> In n ns /\ exists q, node_load d n = Ok q /\ nltb m (length_vector q) = true.
  Proof. exact c71_crosses. Qed.

  (** ** Selections in Grasshopper *)

  (** A selection of nodes or edges, or all of them, are drawn where they are, in order. *)
  Theorem C72_drawn : forall d, produced d ->
    (forall ns, ns <> [] -> (forall n, In n ns -> In n (nodes d)) ->
       exists l, gh_draw_nodes d (Some ns) = Ok l /\ drawn_points d ns l)
    /\ (exists l, gh_draw_nodes d None = Ok l /\ drawn_points d (nodes d) l)
    /\ (forall es, es <> [] -> (forall e, In e es -> In e (edges d)) ->
       exists l, gh_draw_edges d (Some es) = Ok l /\ drawn_lines d es l)
    /\ (exists l, gh_draw_edges d None = Ok l /\ drawn_lines d (edges d) l).
  Proof. exact c72_drawn. Qed.
  (** The edges or origins drawn are those of the selection that are of the kind asked for,
      in order, or all of that kind if nothing is selected. *)
  Theorem C72_kinds : forall d, produced d ->
    (forall es, (forall e, In e es -> In e (edges d)) ->
       draws_edges d (filter (fun e => memb e (trail_edges d)) es) (gh_draw_edges_trail d (Some es))
       /\ draws_edges d (filter (fun e => memb e (deviation_edges d)) es) (gh_draw_edges_deviation d (Some es)))
    /\ draws_edges d (trail_edges d) (gh_draw_edges_trail d None)
    /\ draws_edges d (deviation_edges d) (gh_draw_edges_deviation d None)
    /\ (forall ns, (forall n, In n ns -> In n (nodes d)) ->
       draws_nodes d (filter (fun n => memb n (origin_nodes d)) ns) (gh_draw_origins d (Some ns)))
    /\ draws_nodes d (origin_nodes d) (gh_draw_origins d None).
  Proof. exact c72_kinds. Qed.
  (** The supports drawn are those of the selection, if it has any. *)
  Theorem C72_supports_partial : forall d ns, produced d -> (forall n, In n ns -> In n (nodes d)) ->
    (exists n, In n ns /\ In n (support_nodes d)) ->
    exists l, gh_draw_supports d (Some ns) = Ok l
      /\ drawn_points d (filter (fun n => memb n (support_nodes d)) ns) l.
  Proof. exact c72_supports_partial. Qed.
  (** The trails are drawn through their nodes, from the origin on. *)
  Theorem C72_trails : forall d, produced d ->
    exists ls, gh_draw_trails d = Ok ls /\ Forall2 (fun kt l => drawn_points d (snd kt) l) (trails d) ls.
  Proof. exact c72_trails. Qed.
End Generic.
Print Assumptions C57_same.
Print Assumptions C57_default.
Print Assumptions C57_ignored.
Print Assumptions C57_no_edges.
Print Assumptions C57_empty.
Print Assumptions C71_one_look.
Print Assumptions C71_topology.
Print Assumptions C71_nodes.
Print Assumptions C71_lines.
Print Assumptions C71_crosses.
Print Assumptions C72_drawn.
Print Assumptions C72_kinds.
Print Assumptions C72_supports_partial.
Print Assumptions C72_trails.

(** ** Visibility *)

(** Edges are shown as asked for when the object is made, and by the setter, which
  leaves the points alone. *)
Theorem C73_partial : forall points lines nodes edges b s,
  show_edges (new_flags points lines nodes edges) = Some edges
  /\ edges_drawn (new_flags points lines nodes edges) = edges
  /\ fl_points (new_flags points lines nodes edges) = nodes /\ fl_lines (new_flags points lines nodes edges) = edges
  /\ show_edges (set_show_edges b s) = Some b /\ edges_drawn (set_show_edges b s) = b
  /\ fl_lines (set_show_edges b s) = b /\ fl_points (set_show_edges b s) = fl_points s /\ show_nodes (set_show_edges b s) = show_nodes s
  /\ fl_points (set_show_nodes b s) = b /\ fl_lines (set_show_nodes b s) = fl_lines s.
Proof. exact c73_partial. Qed.
(** Hiding the nodes hides the edges, and what was assigned cannot be read back. *)
Theorem C73_refuted : exists s, edges_drawn s = true /\ edges_drawn (set_show_nodes false s) = false
  /\ forall b, show_nodes (set_show_nodes b s) = None.
Proof. exact c73_refuted. Qed.
Print Assumptions C73_partial.
Print Assumptions C73_refuted.

(** ** Counterexamples *)

(** In the plotter a pair of widths is not used if there are widths: the edges of the
  tower have different forces and the same width. *)
Theorem C57_plotter_refuted : exists (d : diagram float) w e e' f f' x, reachable d /\ In e (edges d) /\ In e' (edges d)
  /\ plotter_set_width d (edges d) (Some w) (WRange 1 5)%float = Ok (Some w)
  /\ edge_force d e = Ok f /\ edge_force d e' = Ok f' /\ PrimFloat.eqb (PrimFloat.abs f) (PrimFloat.abs f') = false
  /\ dget w e = Some x /\ dget w e' = Some x.
Proof. exact c57_plotter_refuted. Qed.
(** A node without edges keeps the plotter from drawing any reaction. *)
Theorem C70_refuted : exists (d : diagram float) n, reachable d /\ In n (support_nodes d)
  /\ (exists e, connected_edges d n = Ok [e])
  /\ plotter_reactions d [n] (fun _ => Ok 1%float) 1%float 0%float = Err (ValueError "max() arg is an empty sequence").
Proof. exact c70_refuted. Qed.
(** An edge without force is gray in the plotter and drawn as in tension in the viewer. *)
Theorem C71_refuted : exists (d : diagram float) e, reachable d /\ In e (edges d) /\ edge_force d e = Ok 0%float
  /\ plotter_form_edge d e = Ok gray /\ viewer_form_edge d e = Ok red.
Proof. exact c71_refuted. Qed.
(** Asking for the supports of a selection without supports draws all nodes. *)
Theorem C72_refuted : exists (d : diagram float) ns l, reachable d /\ ns <> [] /\ (forall n, In n ns -> In n (nodes d))
  /\ (forall n, In n ns -> ~ In n (support_nodes d))
  /\ gh_draw_supports d (Some ns) = Ok l /\ List.length l = List.length (nodes d) /\ l <> [].
Proof. exact c72_refuted. Qed.
Print Assumptions C57_plotter_refuted.
Print Assumptions C70_refuted.
Print Assumptions C71_refuted.
Print Assumptions C72_refuted.

(** ** The hypotheses can be met *)

(** Three edges of the chain of bars, two of them in equilibrium with a load *)
Example C57_nonvacuous : exists form : diagram R, produced form /\ edges form <> [] /\ forces_known form (edges form)
  /\ force form (0, 1) <> 0%R.
Proof.
  destruct rchain_forms as (form&E). exists form.
  assert (P : produced form) by (right; do 5 eexists; split; [apply rchain_reachable|exact E]).
  split; auto. split; [|split; [apply forces_known_all; auto|apply (rchain_forces form E)]].
  destruct (EqThms.c37_frame _ _ _ _ _ _ rchain_reachable E) as (_&Ef&_). rewrite Ef. lazy. discriminate.
Qed.

(** The support of the chain of bars *)
Example C70_nonvacuous : exists form, static_equilibrium rchain None 100 (/ 1000000)%R false = Ok form
  /\ held_by_edges form (nodes form) /\ In 3 (nodes form)
  /\ connected_edges form 3 = Ok [(2, 3)] /\ incident form 3 = [(2, 3)] /\ load form 3 = v0 /\ unbalanced form 3 = v0.
Proof. exact rchain_support. Qed.

(** The tower with its trails has trail edges, direct and indirect deviation edges; the tree has auxiliary trails. *)
Example C71_nonvacuous : drawable tower_built /\ drawable tower
  /\ viewer_draw_topology tower_built (edges tower_built)
     = Ok [(purple, [(0, 1); (1, 2); (3, 4); (4, 5)]); (lime, [(1, 4); (2, 5)]); (coral, [(1, 5); (1, 3); (2, 4)])]
  /\ viewer_draw_topology (made (tree_2d zf ++ [build_aux])) [(1, 5); (3, 4)] = Ok [(orange, [(1, 5)]); (purple, [(3, 4)])].
Proof.
  split; [right|split; [left|split]]; [|vm_compute; reflexivity..].
  intros n I. vm_compute in I. repeat (destruct I as [<-|I]; [eexists; vm_compute; reflexivity|]). contradiction.
Qed.

(** A selection with trail and deviation edges, and one with a support *)
Example C72_nonvacuous : (forall e, In e [(0, 1); (1, 4)] -> In e (edges tower))
  /\ filter (fun e => memb e (trail_edges tower)) [(0, 1); (1, 4)] = [(0, 1)]
  /\ (forall n, In n [1; 3] -> In n (nodes tower)) /\ exists n, In n [1; 3] /\ In n (support_nodes tower).
Proof.
  split; [vm_compute; tauto|]. split; [vm_compute; reflexivity|]. split; [vm_compute; tauto|]. exists 3. vm_compute. tauto.
Qed.
