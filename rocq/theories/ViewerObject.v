(** * Objects of the viewer

    Model of the objects that compas_cem/viewers/{diagram,form,topology}object.py make of a
    diagram: their settings, what they keep from one drawing to the next, and what they hand
    over to compas_view2.  compas_view2 itself is external to /repo.  A viewer is attached to
    the object: Viewer.add does it (viewers/viewer.py:39-42). *)

From Coq Require Import String List ZArith Bool.
From Verif Require Import Py Num Diagram Topology Optimizer Artists Labels.
Import ListNotations.
Open Scope Z_scope.

Section Viewer.
  Context {T : Type} `{NumOps T}.

  (** The defaults of the class (viewers/diagramobject.py:107-114): default_nodesize 10.0,
      default_edgewidth 0.015, default_loadscale 1.0, default_loadtol 1e-3,
      default_residualscale 1.0, default_residualtol 1e-3 *)
  Record defaults : Type := mkDefaults {
    df_size : T; df_width : T; df_lscale : T; df_ltol : T; df_rscale : T; df_rtol : T }.

  (** The attributes of an object (viewers/diagramobject.py:149-167): _diagram, _nodes, _edges,
      _edges_by_type, _node_xyz, _node_color, _edge_color, _edge_width, _node_size, _load_scale,
      _load_tol, _residual_scale, _residual_tol, and the visibility of nodes and edges.  The
      texts are in Labels.v. *)
  Record vobj : Type := mkVobj {
    vo_diagram : diagram T;
    vo_nodes : option (list Z);
    vo_edges : option (list ekey);
    vo_groups : option (dict string (list ekey));
    vo_xyz : option (dict Z (vec T));
    vo_ncolor : option (dict Z rgb);
    vo_ecolor : option (dict ekey rgb);
    vo_width : option (dict ekey T);
    vo_size : option T;
    vo_lscale : option T;
    vo_ltol : option T;
    vo_rscale : option T;
    vo_rtol : option T;
    vo_flags : flags
  }.

  (** self._x = v *)
  Definition put_diagram (v : diagram T) (o : vobj) : vobj :=
    mkVobj v (vo_nodes o) (vo_edges o) (vo_groups o) (vo_xyz o) (vo_ncolor o) (vo_ecolor o) (vo_width o) (vo_size o) (vo_lscale o) (vo_ltol o) (vo_rscale o) (vo_rtol o) (vo_flags o).
  Definition put_nodes (v : option (list Z)) (o : vobj) : vobj :=
    mkVobj (vo_diagram o) v (vo_edges o) (vo_groups o) (vo_xyz o) (vo_ncolor o) (vo_ecolor o) (vo_width o) (vo_size o) (vo_lscale o) (vo_ltol o) (vo_rscale o) (vo_rtol o) (vo_flags o).
  Definition put_edges (v : option (list ekey)) (o : vobj) : vobj :=
    mkVobj (vo_diagram o) (vo_nodes o) v (vo_groups o) (vo_xyz o) (vo_ncolor o) (vo_ecolor o) (vo_width o) (vo_size o) (vo_lscale o) (vo_ltol o) (vo_rscale o) (vo_rtol o) (vo_flags o).
  Definition put_groups (v : option (dict string (list ekey))) (o : vobj) : vobj :=
    mkVobj (vo_diagram o) (vo_nodes o) (vo_edges o) v (vo_xyz o) (vo_ncolor o) (vo_ecolor o) (vo_width o) (vo_size o) (vo_lscale o) (vo_ltol o) (vo_rscale o) (vo_rtol o) (vo_flags o).
  Definition put_xyz (v : option (dict Z (vec T))) (o : vobj) : vobj :=
    mkVobj (vo_diagram o) (vo_nodes o) (vo_edges o) (vo_groups o) v (vo_ncolor o) (vo_ecolor o) (vo_width o) (vo_size o) (vo_lscale o) (vo_ltol o) (vo_rscale o) (vo_rtol o) (vo_flags o).
  Definition put_ncolor (v : option (dict Z rgb)) (o : vobj) : vobj :=
    mkVobj (vo_diagram o) (vo_nodes o) (vo_edges o) (vo_groups o) (vo_xyz o) v (vo_ecolor o) (vo_width o) (vo_size o) (vo_lscale o) (vo_ltol o) (vo_rscale o) (vo_rtol o) (vo_flags o).
  Definition put_ecolor (v : option (dict ekey rgb)) (o : vobj) : vobj :=
    mkVobj (vo_diagram o) (vo_nodes o) (vo_edges o) (vo_groups o) (vo_xyz o) (vo_ncolor o) v (vo_width o) (vo_size o) (vo_lscale o) (vo_ltol o) (vo_rscale o) (vo_rtol o) (vo_flags o).
  Definition put_width (v : option (dict ekey T)) (o : vobj) : vobj :=
    mkVobj (vo_diagram o) (vo_nodes o) (vo_edges o) (vo_groups o) (vo_xyz o) (vo_ncolor o) (vo_ecolor o) v (vo_size o) (vo_lscale o) (vo_ltol o) (vo_rscale o) (vo_rtol o) (vo_flags o).
  Definition put_size (v : option T) (o : vobj) : vobj :=
    mkVobj (vo_diagram o) (vo_nodes o) (vo_edges o) (vo_groups o) (vo_xyz o) (vo_ncolor o) (vo_ecolor o) (vo_width o) v (vo_lscale o) (vo_ltol o) (vo_rscale o) (vo_rtol o) (vo_flags o).
  Definition put_lscale (v : option T) (o : vobj) : vobj :=
    mkVobj (vo_diagram o) (vo_nodes o) (vo_edges o) (vo_groups o) (vo_xyz o) (vo_ncolor o) (vo_ecolor o) (vo_width o) (vo_size o) v (vo_ltol o) (vo_rscale o) (vo_rtol o) (vo_flags o).
  Definition put_ltol (v : option T) (o : vobj) : vobj :=
    mkVobj (vo_diagram o) (vo_nodes o) (vo_edges o) (vo_groups o) (vo_xyz o) (vo_ncolor o) (vo_ecolor o) (vo_width o) (vo_size o) (vo_lscale o) v (vo_rscale o) (vo_rtol o) (vo_flags o).
  Definition put_rscale (v : option T) (o : vobj) : vobj :=
    mkVobj (vo_diagram o) (vo_nodes o) (vo_edges o) (vo_groups o) (vo_xyz o) (vo_ncolor o) (vo_ecolor o) (vo_width o) (vo_size o) (vo_lscale o) (vo_ltol o) v (vo_rtol o) (vo_flags o).
  Definition put_rtol (v : option T) (o : vobj) : vobj :=
    mkVobj (vo_diagram o) (vo_nodes o) (vo_edges o) (vo_groups o) (vo_xyz o) (vo_ncolor o) (vo_ecolor o) (vo_width o) (vo_size o) (vo_lscale o) (vo_ltol o) (vo_rscale o) v (vo_flags o).
  Definition put_flags (v : flags) (o : vobj) : vobj :=
    mkVobj (vo_diagram o) (vo_nodes o) (vo_edges o) (vo_groups o) (vo_xyz o) (vo_ncolor o) (vo_ecolor o) (vo_width o) (vo_size o) (vo_lscale o) (vo_ltol o) (vo_rscale o) (vo_rtol o) v.

  (** Python truth value of a number or None *)
  Definition truthy_num (x : option T) : bool :=
    match x with None => false | Some x => ntruthy x end.

  Definition estate {A} (f : vobj -> vobj) (a : A) : eff vobj A := fun o => (f o, Ok a).

  (** ** Properties of an object *)

  (** The diagram setter (viewers/diagramobject.py:202-206) *)
  Definition set_diagram (d : diagram T) : eff vobj unit :=
    estate (fun o => put_edges None (put_nodes None (put_diagram d o))) tt.

  (** The nodes getter and setter (viewers/diagramobject.py:208-216) *)
  Definition get_nodes : eff vobj (list Z) := fun o =>
    match vo_nodes o with
    | Some l => (o, Ok l)
    | None => let l := nodes (vo_diagram o) in (put_nodes (Some l) o, Ok l)
    end.
  Definition set_nodes (l : option (list Z)) : eff vobj unit := estate (put_nodes l) tt.

  (** The edges getter and setter (viewers/diagramobject.py:218-226) *)
  Definition get_edges : eff vobj (list ekey) := fun o =>
    match vo_edges o with
    | Some l => (o, Ok l)
    | None => let l := edges (vo_diagram o) in (put_edges (Some l) o, Ok l)
    end.
  Definition set_edges (l : option (list ekey)) : eff vobj unit := estate (put_edges l) tt.

  (** The node_xyz getter and setter (viewers/diagramobject.py:228-236) *)
  Definition get_xyz : eff vobj (dict Z (vec T)) := fun o =>
    match vo_xyz o with
    | Some (p :: m) => (o, Ok (p :: m))
    | _ =>
        match fold_res (fun m n => let* p := node_coordinates (vo_diagram o) n in Ok (dset m n p)) (nodes (vo_diagram o)) [] with
        | Ok m => (put_xyz (Some m) o, Ok m)
        | Err e => (o, Err e)
        end
    end.
  Definition set_xyz (m : option (dict Z (vec T))) : eff vobj unit := estate (put_xyz m) tt.

  (** A number that is kept (viewers/diagramobject.py:238-248, 323-365): the getter puts the
      default if the value is None or zero, the setter ignores what is not a number. *)
  Definition get_number (get : vobj -> option T) (put : option T -> vobj -> vobj) (default : T) : eff vobj T := fun o =>
    match get o with
    | Some x => if truthy_num (Some x) then (o, Ok x) else (put (Some default) o, Ok default)
    | None => (put (Some default) o, Ok default)
    end.
  Definition set_number (put : option T -> vobj -> vobj) (x : option T) : eff vobj unit :=
    match x with
    | Some x => estate (put (Some x)) tt
    | None => eret tt
    end.

  (** node_size (viewers/diagramobject.py:238-248), load_scale (:323-332), load_tol (:334-343),
      residual_scale (:345-354), residual_tol (:356-365) *)
  Definition get_size (df : defaults) := get_number vo_size put_size (df_size df).
  Definition set_size := set_number put_size.
  Definition get_load_scale (df : defaults) := get_number vo_lscale put_lscale (df_lscale df).
  Definition set_load_scale := set_number put_lscale.
  Definition get_load_tol (df : defaults) := get_number vo_ltol put_ltol (df_ltol df).
  Definition set_load_tol := set_number put_ltol.
  Definition get_residual_scale (df : defaults) := get_number vo_rscale put_rscale (df_rscale df).
  Definition set_residual_scale := set_number put_rscale.
  Definition get_residual_tol (df : defaults) := get_number vo_rtol put_rtol (df_rtol df).
  Definition set_residual_tol := set_number put_rtol.

  (** The edge_width setter and getter (viewers/diagramobject.py:294-321).  The selected edges
      are read, and with it kept, for a number or a range only. *)
  Definition set_width (w : width (T:=T)) : eff vobj unit :=
    match w with
    | WNone => eret tt
    | WDict m => estate (put_width (Some m)) tt
    | _ =>
        do* es := get_edges in
        fun o =>
          match viewer_set_width (vo_diagram o) es (vo_width o) w with
          | Ok m => (put_width m o, Ok tt)
          | Err e => (o, Err e)
          end
    end.
  Definition get_width (df : defaults) : eff vobj (dict ekey T) := fun o =>
    match vo_width o with
    | Some (w :: m) => (o, Ok (w :: m))
    | _ =>
        (do* _ := set_width (WNumber (df_width df)) in
         eget (fun o => match vo_width o with Some m => Ok m | None => Err TypeError end)) o
    end.

  (** A dictionary that is computed once from the selection (viewers/formobject.py:39-89,
      viewers/topologyobject.py:41-114); nothing is kept if the computation fails. *)
  Definition computed {A} (get : vobj -> option (list A)) (put : option (list A) -> vobj -> vobj)
      (compute : eff vobj (list A)) : eff vobj (list A) := fun o =>
    match get o with
    | Some (x :: m) => (o, Ok (x :: m))
    | _ => (do* m := compute in estate (put (Some m)) m) o
    end.

  (** edge_color (viewers/formobject.py:39-56, viewers/topologyobject.py:41-68) *)
  Definition edge_colors_of (c : kind) : diagram T -> list ekey -> res (dict ekey rgb) :=
    match c with IsForm => viewer_form_edges | IsTopology => type_colors end.
  Definition get_edge_color (c : kind) : eff vobj (dict ekey rgb) :=
    computed vo_ecolor put_ecolor
      (do* es := get_edges in eget (fun o => edge_colors_of c (vo_diagram o) es)).

  (** node_color (viewers/formobject.py:58-72, viewers/topologyobject.py:70-86) *)
  Definition node_colors_of (c : kind) : diagram T -> list Z -> res (dict Z rgb) :=
    match c with IsForm => viewer_form_nodes | IsTopology => viewer_topology_nodes end.
  Definition get_node_color (c : kind) : eff vobj (dict Z rgb) :=
    computed vo_ncolor put_ncolor
      (do* ns := get_nodes in eget (fun o => node_colors_of c (vo_diagram o) ns)).

  (** edges_by_type (viewers/formobject.py:74-89, viewers/topologyobject.py:88-114) *)
  Definition groups_of (c : kind) : diagram T -> list ekey -> res (dict string (list ekey)) :=
    match c with IsForm => form_edges_by_type | IsTopology => edges_by_type end.
  Definition get_groups (c : kind) : eff vobj (dict string (list ekey)) :=
    computed vo_groups put_groups
      (do* es := get_edges in eget (fun o => groups_of c (vo_diagram o) es)).

  (** show_nodes and show_edges (viewers/diagramobject.py:371-375, 381-386) *)
  Definition set_shown_nodes (b : bool) : eff vobj unit := estate (fun o => put_flags (set_show_nodes b (vo_flags o)) o) tt.
  Definition set_shown_edges (b : bool) : eff vobj unit := estate (fun o => put_flags (set_show_edges b (vo_flags o)) o) tt.

  (** ** Drawing *)

  (** draw_nodes (viewers/diagramobject.py:391-404): positions, colors, elements *)
  Definition black_node : rgb := (0, 0, 0). (* default_nodecolor, viewers/diagramobject.py:100 *)
  Definition draw_nodes (c : kind) : eff vobj (list (vec T) * list rgb * list (list Z)) :=
    do* ns := get_nodes in
    do* (out, _) := eloop (fun (acc : (list (vec T) * list rgb * list (list Z)) * Z) n =>
      let '(positions, colors, elements, i) := acc in
      do* xyz := get_xyz in
      do* cs := get_node_color c in
      eret ((positions ++ [match dget xyz n with Some p => p | None => vzero end],
             colors ++ [match dget cs n with Some k => k | None => black_node end],
             elements ++ [[i]]), i + 1)) ns (([], [], []), 0) in
    eret out.

  (** draw_edges2 (viewers/diagramobject.py:427-448): positions, colors, elements *)
  Definition gray_edge : rgb := (50, 50, 50). (* default_edgecolor, viewers/diagramobject.py:101 *)
  Definition draw_edges2 (c : kind) : eff vobj (list (vec T) * list rgb * list (list Z)) :=
    do* es := get_edges in
    do* (out, _) := eloop (fun (acc : (list (vec T) * list rgb * list (list Z)) * Z) (e : ekey) =>
      let '(positions, colors, elements, i) := acc in
      do* xyz := get_xyz in
      let pos n := match dget xyz n with Some p => p | None => vzero end in
      do* cs := get_edge_color c in
      let k := match dget cs e with Some k => k | None => gray_edge end in
      eret ((positions ++ [pos (fst e); pos (snd e)], colors ++ [k; k], elements ++ [[i + 0; i + 1]]), i + 2))
      es (([], [], []), 0) in
    eret out.

  (** compas.geometry.Cylinder around a circle on a plane: the center and the normal of
      the plane, the radius of the circle, the height, half of it on either side of the plane *)
  Record cylinder : Type := mkCylinder { cy_center : vec T; cy_axis : vec T; cy_radius : T; cy_height : T }.

  (** compas.datastructures.Network.edge_vector and edge_length (external to /repo) *)
  Definition edge_vector (d : diagram T) (e : ekey) : res (vec T) :=
    let* a := node_coordinates d (fst e) in
    let* b := node_coordinates d (snd e) in
    Ok (subtract_vectors b a).
  Definition edge_distance (d : diagram T) (e : ekey) : res T :=
    let* a := node_coordinates d (fst e) in
    let* b := node_coordinates d (snd e) in
    Ok (distance_point_point a b).

  (** _edge_meshes (viewers/diagramobject.py:710-726) *)
  Definition edge_meshes (df : defaults) : eff vobj (dict ekey cylinder) :=
    do* es := get_edges in
    eloop (fun cylinders (e : ekey) =>
      do* midpoint := eget (fun o => edge_midpoint (vo_diagram o) e) in
      do* axis := eget (fun o => edge_vector (vo_diagram o) e) in
      do* ws := get_width df in
      do* x := eget (fun _ => dgetr ws e) in
      do* height := eget (fun o => edge_distance (vo_diagram o) e) in
      eret (dset cylinders e (mkCylinder midpoint axis (ndiv x (nadd n1 n1)) height))) es [].

  (** draw_edges (viewers/diagramobject.py:406-425): for every group a color and the cylinders *)
  Definition draw_edges (c : kind) (df : defaults) : eff vobj (list (rgb * list cylinder)) := fun o =>
    if negb (edges_drawn (vo_flags o)) then (o, Ok [])
    else
      (do* meshes := edge_meshes df in
       do* groups := get_groups c in
       eloop (fun out (g : string * list ekey) =>
         match snd g with
         | [] => eret out
         | e :: _ =>
             do* cyls := eget (fun _ => map_res (fun e => dgetr meshes e) (snd g)) in
             do* cs := get_edge_color c in
             do* k := eget (fun _ => dgetr cs e) in
             eret (out ++ [(k, cyls)])
         end) groups []) o.

  (** draw_loads and draw_residuals (viewers/diagramobject.py:450-513), with the loads and the
      residuals shown *)
  Definition draw_loads (df : defaults) : eff vobj (list (Z * arrow (T:=T))) :=
    do* ns := get_nodes in
    do* scale := get_load_scale df in
    do* tol := get_load_tol df in
    eget (fun o => viewer_loads (vo_diagram o) ns scale tol).
  Definition draw_residuals (df : defaults) : eff vobj (list (Z * arrow (T:=T))) :=
    do* ns := get_nodes in
    do* scale := get_residual_scale df in
    do* tol := get_residual_tol df in
    eget (fun o => viewer_residuals (vo_diagram o) ns scale tol).

  (** ** Making an object *)

  (** The arguments of the constructor that this model has (viewers/diagramobject.py:126-142);
      [None] for the numbers and the selections that are not given. *)
  Record options : Type := mkOptions {
    op_nodes : option (list Z); op_edges : option (list ekey);
    op_size : option T; op_width : width (T:=T);
    op_lscale : option T; op_rscale : option T; op_ltol : option T; op_rtol : option T;
    op_show_nodes : bool; op_show_edges : bool; op_show_loads : bool; op_show_residuals : bool }.

  (** The options a user gets without giving any (viewers/diagramobject.py:128-142) *)
  Definition no_options : options :=
    mkOptions None None None WNone None None None None false true true true.

  (** What is handed over to the viewer when an object is made *)
  Record drawing : Type := mkDrawing {
    dr_edges : list (rgb * list cylinder);
    dr_loads : option (list (Z * arrow (T:=T)));
    dr_residuals : option (list (Z * arrow (T:=T))) }.

  (** An object before its first setter (viewers/diagramobject.py:149-169); the flags of
      compas_view2 are true. *)
  Definition blank (d : diagram T) : vobj :=
    mkVobj d None None None None None None None None None None None None (mkFlags None None true true).

  (** DiagramObject.__init__ (viewers/diagramobject.py:169-183); [blank] has set the diagram *)
  Definition init_object (a : options) : eff vobj unit :=
    do* _ := set_nodes (op_nodes a) in
    do* _ := set_edges (op_edges a) in
    do* _ := set_size (op_size a) in
    do* _ := set_width (op_width a) in
    do* _ := set_load_scale (op_lscale a) in
    do* _ := set_load_tol (op_ltol a) in
    do* _ := set_residual_scale (op_rscale a) in
    do* _ := set_residual_tol (op_rtol a) in
    do* _ := set_shown_nodes (op_show_nodes a) in
    set_shown_edges (op_show_edges a).

  (** FormDiagramObject.__init__ and TopologyDiagramObject.__init__ (viewers/formobject.py:24-37,
      viewers/topologyobject.py:27-39), without the texts *)
  Definition new_object (c : kind) (df : defaults) (d : diagram T) (a : options) : vobj * res drawing :=
    (do* _ := init_object a in
     do* _ := get_edge_color c in
     do* _ := get_node_color c in
     do* es := draw_edges c df in
     do* ls := (if op_show_loads a then do* l := draw_loads df in eret (Some l) else eret None) in
     do* rs := (match c with
                | IsForm => if op_show_residuals a then do* l := draw_residuals df in eret (Some l) else eret None
                | IsTopology => eret None
                end) in
     eret (mkDrawing es ls rs)) (blank d).

  (** ** Using an object *)

  (** What a user can do with an object *)
  Inductive use : Type :=
  | UDiagram (d : diagram T)
  | UNodes (l : option (list Z))
  | UEdges (l : option (list ekey))
  | UXyz (m : option (dict Z (vec T)))
  | USize (x : option T)
  | UWidth (w : width (T:=T))
  | ULoadScale (x : option T)
  | ULoadTol (x : option T)
  | UResidualScale (x : option T)
  | UResidualTol (x : option T)
  | UShowNodes (b : bool)
  | UShowEdges (b : bool)
  | UDrawNodes
  | UDrawEdges
  | UDrawLines
  | UDrawLoads
  | UDrawResiduals.

  (** The object after it: the state an exception leaves is the state the object has. *)
  Definition after_use (c : kind) (df : defaults) (o : vobj) (u : use) : vobj :=
    match u with
    | UDiagram d => fst (set_diagram d o)
    | UNodes l => fst (set_nodes l o)
    | UEdges l => fst (set_edges l o)
    | UXyz m => fst (set_xyz m o)
    | USize x => fst (set_size x o)
    | UWidth w => fst (set_width w o)
    | ULoadScale x => fst (set_load_scale x o)
    | ULoadTol x => fst (set_load_tol x o)
    | UResidualScale x => fst (set_residual_scale x o)
    | UResidualTol x => fst (set_residual_tol x o)
    | UShowNodes b => fst (set_shown_nodes b o)
    | UShowEdges b => fst (set_shown_edges b o)
    | UDrawNodes => fst (draw_nodes c o)
    | UDrawEdges => fst (draw_edges c df o)
    | UDrawLines => fst (draw_edges2 c o)
    | UDrawLoads => fst (draw_loads df o)
    | UDrawResiduals => fst (draw_residuals df o)
    end.
  Definition used (c : kind) (df : defaults) (o : vobj) (us : list use) : vobj := fold_left (after_use c df) us o.
End Viewer.
Arguments defaults T : clear implicits.
Arguments vobj T : clear implicits.
Arguments cylinder T : clear implicits.
Arguments options T : clear implicits.
Arguments drawing T : clear implicits.
Arguments use T : clear implicits.
