(** * Drawing diagrams

    Model of compas_cem/viewers/*.py, compas_cem/plotters/{form,topology}artist.py
    and compas_cem/ghpython/artists.py: what is handed to the drawing libraries.
    The libraries themselves (compas_view2, compas_plotters, compas_ghpython) are
    external to /repo: an arrow is modelled by the point and the vector (or the two
    end points) it is made from, a color by its RGB triplet. *)

From Coq Require Import String List ZArith Bool.
From Verif Require Import Py Num Diagram Topology Optimizer.
Import ListNotations.
Open Scope Z_scope.

Definition rgb : Type := (Z * Z * Z)%type.

(** COLORS (compas_cem/__init__.py:42-55) *)
Definition COLORS : dict string rgb :=
  [("tension", (227, 6, 75)); ("compression", (12, 119, 184)); ("edge", (50, 50, 50));
   ("node", (255, 255, 255)); ("node_black", (0, 0, 0)); ("node_support", (0, 150, 10));
   ("node_origin", (155, 100, 255)); ("edge_trail", (180, 0, 255));
   ("edge_deviation", (127, 255, 0)); ("edge_deviation_indirect", (255, 100, 47));
   ("support_force", (75, 75, 75)); ("load", (0, 150, 10)); ("trail", (250, 80, 210));
   ("auxiliary_trail", (255, 155, 15))]%string.

(** COLORS[name] *)
Definition color (name : string) : res rgb := dgetr COLORS name.

(** The builtin [max(l, key=f)]: the first element with the largest [f]; ValueError if [l] is empty. *)
Fixpoint max_by {A B} (lt : B -> B -> bool) (f : A -> B) (m : A) (l : list A) : A :=
  match l with
  | [] => m
  | x :: l => max_by lt f (if lt (f m) (f x) then x else m) l
  end.
Definition py_max {A B} (lt : B -> B -> bool) (f : A -> B) (l : list A) : res A :=
  match l with
  | [] => Err (ValueError "max() arg is an empty sequence")
  | x :: l => Ok (max_by lt f x l)
  end.
(** The builtin [min(l)] *)
Definition py_min {B} (lt : B -> B -> bool) (l : list B) : res B :=
  match l with
  | [] => Err (ValueError "min() arg is an empty sequence")
  | x :: l => Ok (max_by (fun a b => lt b a) (fun b => b) x l)
  end.

Section Artists.
  Context {T : Type} `{NumOps T}.

  (** ** Edge widths *)

  (** What a user can assign to [edge_width]: nothing, a dictionary, a number or a pair. *)
  Inductive width : Type :=
  | WNone
  | WDict (w : dict ekey T)
  | WNumber (x : T)
  | WRange (low high : T).

  (** The try statement in viewers/diagramobject.py:314-317, plotters/formartist.py:102-105.
      Dividing a float by zero raises ZeroDivisionError. *)
  Definition width_ratio (force forcemin forcemax : T) : T :=
    let den := nsub forcemax forcemin in
    if neqb den n0 then n1 else ndiv (nsub force forcemin) den.

  (** (1.0 - ratio) * low + ratio * high (viewers/diagramobject.py:318, plotters/formartist.py:106) *)
  Definition width_between (low high ratio : T) : T :=
    nadd (nmul (nsub n1 ratio) low) (nmul ratio high).

  (** The widths of the edges between two bounds (viewers/diagramobject.py:307-321,
      plotters/formartist.py:94-109). *)
  Definition width_range (d : diagram T) (es : list ekey) (low high : T) : res (dict ekey T) :=
    let* forces := map_res (fun e => let* f := edge_force d e in Ok (nabs f)) es in
    let* forcemin := py_min nltb forces in
    let* forcemax := py_max nltb (fun f => f) forces in
    fold_res (fun w e =>
      let* f := edge_force d e in
      Ok (dset w e (width_between low high (width_ratio (nabs f) forcemin forcemax)))) es [].

  (** { edge : width for edge in edges } *)
  Definition width_all (es : list ekey) (x : T) : dict ekey T :=
    fold_left (fun w e => dset w e x) es [].

  (** Python truth value of a dictionary or None *)
  Definition truthy_dict {K V} (w : option (dict K V)) : bool :=
    match w with None | Some [] => false | Some _ => true end.

  (** The edge_width setter of the viewer (viewers/diagramobject.py:300-321).  [prev]
      is the value of [_edge_width] before, [es] is [self.edges]. *)
  Definition viewer_set_width (d : diagram T) (es : list ekey) (prev : option (dict ekey T)) (w : width)
    : res (option (dict ekey T)) :=
    match w with
    | WNone => Ok prev
    | WDict w => Ok (Some w)
    | WNumber x => Ok (Some (width_all es x))
    | WRange low high => let* w := width_range d es low high in Ok (Some w)
    end.

  (** The edge_width getter of the viewer (viewers/diagramobject.py:294-298); [default]
      is default_edgewidth, 0.015. *)
  Definition viewer_width (es : list ekey) (default : T) (cur : option (dict ekey T)) : dict ekey T :=
    match cur with
    | Some w => if truthy_dict (Some w) then w else width_all es default
    | None => width_all es default
    end.

  (** The edge_width setter of the plotter (plotters/formartist.py:87-109).  The first
      statement calls the setter of compas_plotters' NetworkArtist, external to /repo:
      a dictionary is kept, a number is given to all the edges of the diagram and
      anything else leaves [_edge_width] as it was. *)
  Definition plotter_set_width (d : diagram T) (es : list ekey) (prev : option (dict ekey T)) (w : width)
    : res (option (dict ekey T)) :=
    let cur := match w with
               | WDict w => Some w
               | WNumber x => Some (width_all (edges d) x)
               | _ => prev
               end in
    if truthy_dict cur then Ok cur
    else match w with
         | WRange low high => let* w := width_range d es low high in Ok (Some w)
         | WDict _ => Err (ValueError "not enough values to unpack (expected 2, got 0)") (* low, high = {} *)
         | WNone | WNumber _ => Err TypeError (* cannot unpack non-iterable object *)
         end.

  (** ** Forces as arrows *)

  Record arrow : Type := mkArrow { a_start : vec T; a_end : vec T }.

  (** compas.geometry.translate_points on two points *)
  Definition translate_two (a b v : vec T) : vec T * vec T := (add_vectors a v, add_vectors b v).

  (** One arrow of _draw_forces (plotters/formartist.py:200-223, ghpython/artists.py:162-186):
      None if the force is skipped. *)
  Definition gap_arrow (xyz f : vec T) (scale gap tol : T) (shift : bool) : option arrow :=
    let f_scaled := scale_vector f scale in
    let f_norm := normalize_vector f in
    let f_len := length_vector f in
    if nltb f_len tol then None
    else
      let '(start, stop) := (xyz, add_vectors xyz f_scaled) in
      let g := if shift then nmul (nadd gap (length_vector f_scaled)) (nopp n1) else gap in
      let '(start, stop) := translate_two start stop (scale_vector f_norm g) in
      Some (mkArrow start stop).

  (** One arrow of _force_vectors (viewers/diagramobject.py:586-612): no gap. *)
  Definition viewer_arrow (xyz f : vec T) (scale tol : T) (shift : bool) : option arrow :=
    let f_norm := normalize_vector f in
    let f_scaled := scale_vector f scale in
    let f_len := length_vector f in
    if nltb f_len tol then None
    else
      let '(start, stop) := (xyz, add_vectors xyz f_scaled) in
      let '(start, stop) :=
        if shift then translate_two start stop (scale_vector f_norm (nmul (length_vector f_scaled) (nopp n1)))
        else (start, stop) in
      Some (mkArrow start stop).

  (** The force drawn at a node: node_attributes(node, ["qx", "qy", "qz"]) or ["rx", "ry", "rz"] *)
  Inductive drawn : Type := Load | Reaction.
  Definition force_at (w : drawn) (d : diagram T) (n : Z) : res (vec T) :=
    match w with Load => node_load d n | Reaction => reaction_force d n end.

  (** Arrows by node, in the order they are drawn, one after the other *)
  Definition arrows (d : diagram T) (w : drawn) (ns : list Z) (one : Z -> vec T -> vec T -> res (option arrow))
    : res (list (Z * arrow)) :=
    fold_res (fun acc n =>
      let* f := force_at w d n in
      let* p := node_coordinates d n in
      let* a := one n p f in
      Ok (match a with Some a => acc ++ [(n, a)] | None => acc end)) ns [].

  (** reaction_shifts (viewers/diagramobject.py:479-492, plotters/formartist.py:157-170,
      ghpython/artists.py:294-301), for one node: the force of the most loaded edge *)
  Definition leading_force (d : diagram T) (n : Z) : res T :=
    let* es := connected_edges d n in
    let* forces := map_res (edge_force d) es in
    py_max nltb nabs forces.
  Definition reaction_shift (d : diagram T) (n : Z) : res bool :=
    let* f := leading_force d n in Ok (nltb f n0).
  Definition reaction_shifts (d : diagram T) (ns : list Z) : res (dict Z bool) :=
    fold_res (fun s n => let* b := reaction_shift d n in Ok (dset s n b)) ns [].

  (** shift[node] *)
  Definition with_shift (shift : dict Z bool) (n : Z) : res bool := dgetr shift n.

  (** draw_loads and draw_residuals of the viewer (viewers/diagramobject.py:450-513),
      with a viewer attached and the loads and residuals shown.  The arrows are the values
      of a dictionary by node: a node listed twice is drawn once. *)
  Definition viewer_loads (d : diagram T) (ns : list Z) (scale tol : T) : res (list (Z * arrow)) :=
    arrows d Load (nodup Z.eq_dec ns) (fun n p f => Ok (viewer_arrow p f scale tol false)).
  Definition viewer_residuals (d : diagram T) (ns : list Z) (scale tol : T) : res (list (Z * arrow)) :=
    let* shift := reaction_shifts d ns in
    arrows d Reaction (nodup Z.eq_dec ns)
      (fun n p f => let* s := with_shift shift n in Ok (viewer_arrow p f scale tol s)).

  (** draw_loads and draw_reactions of the plotter (plotters/formartist.py:142-177);
      [size] is the node size, which is the gap (:213).  The shifts of the reactions are
      computed for all the nodes of the diagram. *)
  Definition plotter_loads (d : diagram T) (ns : list Z) (size : Z -> res T) (scale tol : T) : res (list (Z * arrow)) :=
    arrows d Load ns (fun n p f =>
      if nltb (length_vector f) tol then Ok None
      else let* g := size n in Ok (gap_arrow p f scale g tol false)).
  Definition plotter_reactions (d : diagram T) (ns : list Z) (size : Z -> res T) (scale tol : T) : res (list (Z * arrow)) :=
    let* shift := reaction_shifts d (nodes d) in
    arrows d Reaction ns (fun n p f =>
      if nltb (length_vector f) tol then Ok None
      else let* g := size n in let* s := with_shift shift n in Ok (gap_arrow p f scale g tol s)).

  (** [keys or list(...)] (ghpython/artists.py:79, 99, 130, 289) *)
  Definition or_all {A} (sel : option (list A)) (all : list A) : list A :=
    match sel with None | Some [] => all | Some l => l end.

  (** draw_loads and draw_reactions of the Grasshopper artist (ghpython/artists.py:107-134, 265-303) *)
  Definition gh_loads (d : diagram T) (sel : option (list Z)) (scale gap tol : T) : res (list (Z * arrow)) :=
    arrows d Load (or_all sel (nodes d)) (fun n p f => Ok (gap_arrow p f scale gap tol false)).
  Definition gh_reactions (d : diagram T) (sel : option (list Z)) (scale gap tol : T) : res (list (Z * arrow)) :=
    let ns := or_all sel (nodes d) in
    let* shift := reaction_shifts d ns in
    arrows d Reaction ns (fun n p f =>
      if nltb (length_vector f) tol then Ok None
      else let* s := with_shift shift n in Ok (gap_arrow p f scale gap tol s)).

  (** ** Colors *)

  (** { key : color(key) for key in keys } *)
  Definition color_map {K} `{Eqb K} (ks : list K) (f : K -> res rgb) : res (dict K rgb) :=
    fold_res (fun m k => let* c := f k in Ok (dset m k c)) ks [].

  (** FormArtist.draw_edges (plotters/formartist.py:125-140): all the edges of the
      diagram; a force is compared with 0.0 and its sign taken by copysign. *)
  Definition plotter_form_edge (d : diagram T) (e : ekey) : res rgb :=
    let* f := edge_force d e in
    if neqb f n0 then color "edge"
    else if nltb (ncopysign n1 f) n0 then color "compression" else color "tension".
  Definition plotter_form_edges (d : diagram T) : res (dict ekey rgb) :=
    color_map (edges d) (plotter_form_edge d).

  (** FormArtist.draw_nodes (plotters/formartist.py:111-123) *)
  Definition plotter_form_node (d : diagram T) (n : Z) : res rgb :=
    let* s := is_node_support d n in
    if s then color "node_support" else color "node".
  Definition plotter_form_nodes (d : diagram T) (ns : list Z) : res (dict Z rgb) :=
    color_map ns (plotter_form_node d).

  (** [x >= 0.0]: not the negation of [x < 0.0] for NaN *)
  Definition nonneg (x : T) : bool := nltb n0 x || neqb x n0.

  (** FormDiagramObject.edge_color (viewers/formobject.py:39-56) *)
  Definition viewer_form_edge (d : diagram T) (e : ekey) : res rgb :=
    let* f := edge_force d e in
    if nonneg f then color "tension"
    else if nltb f n0 then color "compression"
    else color "edge".
  Definition viewer_form_edges (d : diagram T) (es : list ekey) : res (dict ekey rgb) :=
    color_map es (viewer_form_edge d).

  (** FormDiagramObject.node_color (viewers/formobject.py:58-72) *)
  Definition viewer_form_node (d : diagram T) (n : Z) : res rgb :=
    let* s := is_node_support d n in
    if s then color "node_support" else color "node_black".
  Definition viewer_form_nodes (d : diagram T) (ns : list Z) : res (dict Z rgb) :=
    color_map ns (viewer_form_node d).

  (** A local variable that may be unbound, and that keeps its value from one round of
      the loop to the next *)
  Definition local_var (A : Type) : Type := option A.
  Definition read_var {A} (v : local_var A) : res A :=
    match v with Some a => Ok a | None => Err UnboundLocalError end.

  (** The cascade of TopologyDiagramObject.edge_color (viewers/topologyobject.py:47-64) and
      TopologyArtist.draw_edges with edgecolor "type" (plotters/topologyartist.py:124-141): the
      variable is left alone when no case applies. *)
  Definition edge_kind (d : diagram T) (v : local_var string) (e : ekey) : res (local_var string) :=
    if is_auxiliary_trail_edge d e then Ok (Some "auxiliary_trail"%string)
    else
      let* t := is_trail_edge d e in
      if t then Ok (Some "edge_trail"%string)
      else if has_trails d then
        let* b := is_direct_deviation_edge d e in
        if b then Ok (Some "edge_deviation"%string)
        else
          let* b := is_indirect_deviation_edge d e in
          if b then Ok (Some "edge_deviation_indirect"%string) else Ok v
      else
        let* b := is_deviation_edge d e in
        if b then Ok (Some "edge_deviation"%string) else Ok v.

  (** The loop around it: the colors by edge *)
  Definition type_colors (d : diagram T) (es : list ekey) : res (dict ekey rgb) :=
    let* r := fold_res (fun (acc : dict ekey rgb * local_var string) e =>
      let* v := edge_kind d (snd acc) e in
      let* name := read_var v in
      let* c := color name in
      Ok (dset (fst acc) e c, v)) es ([], None) in
    Ok (fst r).

  (** TopologyDiagramObject.edges_by_type (viewers/topologyobject.py:88-114): the groups
      in the order of their first edge *)
  Definition group_of (name : string) : string :=
    if String.eqb name "auxiliary_trail" then "auxiliary"
    else if String.eqb name "edge_trail" then "trail"
    else if String.eqb name "edge_deviation" then "deviation"
    else "deviation_indirect".
  Definition edges_by_type (d : diagram T) (es : list ekey) : res (dict string (list ekey)) :=
    fold_res (fun m e =>
      let* v := edge_kind d None e in
      Ok (match v with
          | None => m
          | Some name =>
              let g := group_of name in
              dset m g (match dget m g with Some l => l ++ [e] | None => [e] end)
          end)) es [].

  (** FormDiagramObject.edges_by_type (viewers/formobject.py:74-89) *)
  Definition form_edges_by_type (d : diagram T) (es : list ekey) : res (dict string (list ekey)) :=
    fold_res (fun m e =>
      let* f := edge_force d e in
      let add g := dset m g (match dget m g with Some l => l ++ [e] | None => [e] end) in
      Ok (if nonneg f then add "tension"%string
          else if nltb f n0 then add "compression"%string else m)) es [].

  (** draw_edges of the viewer (viewers/diagramobject.py:406-425): for every group, the
      color of its first edge and the edges drawn with it *)
  Definition viewer_draw (groups : dict string (list ekey)) (colors : dict ekey rgb) : res (list (rgb * list ekey)) :=
    fold_res (fun out (g : string * list ekey) =>
      match snd g with
      | [] => Ok out
      | e :: _ => let* c := dgetr colors e in Ok (out ++ [(c, snd g)])
      end) groups [].
  Definition viewer_draw_topology (d : diagram T) (es : list ekey) : res (list (rgb * list ekey)) :=
    let* cs := type_colors d es in
    let* gs := edges_by_type d es in
    viewer_draw gs cs.
  Definition viewer_draw_form (d : diagram T) (es : list ekey) : res (list (rgb * list ekey)) :=
    let* cs := viewer_form_edges d es in
    let* gs := form_edges_by_type d es in
    viewer_draw gs cs.

  (** TopologyArtist.draw_edges with edgecolor "state", the default
      (plotters/topologyartist.py:107-122).  edge_statecolors (:52-55) has the keys
      -1.0, 1.0, 0.0; copysign(1.0, x) is never 0.0. *)
  Definition state_name (d : diagram T) (v : local_var bool) (e : ekey) : res (local_var bool * string) :=
    if is_auxiliary_trail_edge d e then Ok (v, "auxiliary_trail"%string)
    else
      let* t := is_trail_edge d e in
      let* v := if t then Ok (Some true)
                else let* b := is_deviation_edge d e in Ok (if b then Some false else v) in
      let* trail := read_var v in
      let* x := if trail then edge_length_2 d e else edge_force d e in
      Ok (v, if nltb (ncopysign n1 x) n0 then "compression"%string else "tension"%string).
  Definition state_colors (d : diagram T) (es : list ekey) : res (dict ekey rgb) :=
    let* r := fold_res (fun (acc : dict ekey rgb * local_var bool) e =>
      let* (v, name) := state_name d (snd acc) e in
      let* c := color name in
      Ok (dset (fst acc) e c, v)) es ([], None) in
    Ok (fst r).

  (** TopologyDiagramObject.node_color (viewers/topologyobject.py:70-86) *)
  Definition viewer_topology_node (d : diagram T) (n : Z) : res rgb :=
    let* s := is_node_support d n in
    if s then color "node_support"
    else
      let* o := is_node_origin d n in
      if o then color "node_origin" else color "node_black".
  Definition viewer_topology_nodes (d : diagram T) (ns : list Z) : res (dict Z rgb) :=
    color_map ns (viewer_topology_node d).

  (** TopologyArtist.draw_nodes with nodecolor "type", the default
      (plotters/topologyartist.py:76-97); node_typecolors is at :46-48. *)
  Definition plotter_topology_node (d : diagram T) (n : Z) : res rgb :=
    let* a := node_get d n in
    match na_type a with
    | Some TSupport => color "node_support"
    | Some TOrigin => color "node_origin"
    | None => color "node"
    end.
  Definition plotter_topology_nodes (d : diagram T) (ns : list Z) : res (dict Z rgb) :=
    color_map ns (plotter_topology_node d).

  (** The line styles (plotters/topologyartist.py:59-60, 146-150): true for a solid
      line, false for a dashed one.  An edge without a type raises KeyError. *)
  Definition line_styles (d : diagram T) (es : list ekey) : res (list bool) :=
    map_res (fun e =>
      let* a := edge_get d e in
      match ea_type a with
      | Some ETrail => Ok true
      | Some EDeviation => Ok false
      | None => Err KeyError
      end) es.

  (** The nodes where draw_loads draws a cross (plotters/topologyartist.py:152-177);
      [min_force] is the default of loaded_nodes. *)
  Definition crosses (d : diagram T) (ns : list Z) (min_force : T) : res (list Z) :=
    let* l := loaded_nodes d min_force in
    Ok (filter (fun n => memb n ns) l).

  (** ** Visibility *)

  (** The flags of the viewer object: _show_nodes, _show_edges (viewers/diagramobject.py:166-167)
      and the flags show_points, show_lines of the object of compas_view2 *)
  Record flags : Type := mkFlags {
    fl_nodes : option bool; fl_edges : option bool; fl_points : bool; fl_lines : bool }.

  (** The setters of show_nodes and show_edges (viewers/diagramobject.py:367-386) *)
  Definition set_show_nodes (b : bool) (s : flags) : flags := mkFlags (fl_nodes s) (Some b) b (fl_lines s).
  Definition set_show_edges (b : bool) (s : flags) : flags := mkFlags (fl_nodes s) (Some b) (fl_points s) b.

  (** The getters (viewers/diagramobject.py:367-369, 377-379), and the test at the start of
      draw_edges (:410) *)
  Definition show_nodes (s : flags) : option bool := fl_nodes s.
  Definition show_edges (s : flags) : option bool := fl_edges s.
  Definition edges_drawn (s : flags) : bool := match show_edges s with Some true => true | _ => false end.

  (** The constructor (viewers/diagramobject.py:166-167, 182-183); [points] and [lines] are
      the flags set by the constructor of compas_view2's object. *)
  Definition new_flags (points lines nodes edges : bool) : flags :=
    set_show_edges edges (set_show_nodes nodes (mkFlags None None points lines)).

  (** ** Selections in Grasshopper *)

  (** draw_nodes (ghpython/artists.py:65-84): the points drawn *)
  Definition gh_draw_nodes (d : diagram T) (sel : option (list Z)) : res (list (vec T)) :=
    map_res (node_coordinates d) (or_all sel (nodes d)).

  (** draw_edges (ghpython/artists.py:86-105): the lines drawn.  edge_coordinates(u, v)
      of compas gives the coordinates of u and v. *)
  Definition gh_draw_edges (d : diagram T) (sel : option (list ekey)) : res (list (vec T * vec T)) :=
    map_res (fun e => let* a := node_coordinates d (fst e) in let* b := node_coordinates d (snd e) in Ok (a, b))
            (or_all sel (edges d)).

  (** _collection_keys (ghpython/artists.py:207-230) *)
  Definition collection_keys {K} (all : list K) (filterer : K -> res bool) (sel : option (list K)) : res (list K) :=
    match sel with
    | None => Ok all
    | Some l => filter_res filterer l
    end.

  (** draw_nodes_support (ghpython/artists.py:190-205) *)
  Definition gh_draw_supports (d : diagram T) (sel : option (list Z)) : res (list (vec T)) :=
    let* ns := collection_keys (support_nodes d) (is_node_support d) sel in
    gh_draw_nodes d (Some ns).

  (** draw_nodes_origin (ghpython/artists.py:326-345); None when nothing is drawn *)
  Definition gh_draw_origins (d : diagram T) (sel : option (list Z)) : res (option (list (vec T))) :=
    let* ns := collection_keys (origin_nodes d) (is_node_origin d) sel in
    match ns with
    | [] => Ok None
    | _ => let* l := gh_draw_nodes d (Some ns) in Ok (Some l)
    end.

  (** draw_edges_deviation and draw_edges_trail (ghpython/artists.py:347-380) *)
  Definition gh_draw_edges_deviation (d : diagram T) (sel : option (list ekey)) : res (option (list (vec T * vec T))) :=
    let* es := collection_keys (deviation_edges d) (is_deviation_edge d) sel in
    match es with
    | [] => Ok None
    | _ => let* l := gh_draw_edges d (Some es) in Ok (Some l)
    end.
  Definition gh_draw_edges_trail (d : diagram T) (sel : option (list ekey)) : res (option (list (vec T * vec T))) :=
    let* es := collection_keys (trail_edges d) (is_trail_edge d) sel in
    match es with
    | [] => Ok None
    | _ => let* l := gh_draw_edges d (Some es) in Ok (Some l)
    end.

  (** draw_trails (ghpython/artists.py:382-396): the points of the polylines *)
  Definition gh_draw_trails (d : diagram T) : res (list (list (vec T))) :=
    map_res (fun kt => map_res (node_coordinates d) (snd kt)) (trails d).
End Artists.
