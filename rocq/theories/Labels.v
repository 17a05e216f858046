(** * Text labels

    Model of the text labels of compas_cem/plotters/{form,topology}artist.py and
    compas_cem/viewers/diagramobject.py: what is handed to the drawing libraries.

    Simplification: a text is the list of the things it is made of.  A number or a point
    stands for itself written with two decimals (float_precision "2f",
    plotters/formartist.py:61, plotters/topologyartist.py:62, viewers/diagramobject.py:123;
    compas.utilities.geometric_key for points, external to /repo); rounding is not modelled. *)

From Coq Require Import String List ZArith Bool Ascii.
From Verif Require Import Py Num Diagram Topology Optimizer.
Import ListNotations.
Open Scope Z_scope.

(** "\n" *)
Definition newline : string := String (ascii_of_nat 10) EmptyString.

Section Labels.
  Context {T : Type} `{NumOps T}.

  Inductive piece : Type :=
  | Word (s : string)
  | Key (n : Z)
  | Number (x : T)
  | Point (p : vec T).
  Definition label : Type := list piece.

  (** What a user can give as [nodetext] or [edgetext]: nothing, a string or a dictionary *)
  Inductive text (K : Type) : Type :=
  | TextNone
  | TextTag (s : string)
  | TextDict (m : dict K label).
  Arguments TextNone {K}.
  Arguments TextTag {K} s.
  Arguments TextDict {K} m.

  (** A formatter computes the label of a node or an edge. *)
  Definition formatter (K : Type) : Type := K -> res label.

  (** The loops at plotters/topologyartist.py:237-244, 296-303, plotters/formartist.py:253-260,
      295-302, viewers/diagramobject.py:644-651, 701-708 *)
  Definition text_labels {K} `{Eqb K} (f : formatter K) (ks : list K) : res (dict K label) :=
    fold_res (fun m k => let* l := f k in Ok (dset m k l)) ks [].

  (** ** Formatters of nodes *)

  (** gkey_format (plotters/topologyartist.py:211-212, plotters/formartist.py:239-240,
      viewers/diagramobject.py:628-629) *)
  Definition gkey_format (d : diagram T) : formatter Z := fun n =>
    let* p := node_coordinates d n in Ok [Point p].

  (** key_gkey_format (plotters/topologyartist.py:214-215, plotters/formartist.py:242-243,
      viewers/diagramobject.py:631-632) *)
  Definition key_gkey_format (d : diagram T) : formatter Z := fun n =>
    let* l := gkey_format d n in Ok ([Key n; Word newline] ++ l).

  (** "{}".format of the node attribute "type" (plotters/topologyartist.py:217-218) *)
  Definition node_type_format (d : diagram T) : formatter Z := fun n =>
    let* a := node_get d n in
    Ok [Word match na_type a with Some TSupport => "support" | Some TOrigin => "_origin" | None => "None" end]%string.

  (** sequence_format, key_sequence_format (plotters/topologyartist.py:220-224) *)
  Definition sequence_format (d : diagram T) : formatter Z := fun n =>
    let* k := node_sequence d n in Ok [Key k].
  Definition key_sequence_format (d : diagram T) : formatter Z := fun n =>
    let* l := sequence_format d n in Ok ([Key n; Word newline] ++ l).

  (** ** Formatters of edges *)

  (** force_format, length_format (plotters/topologyartist.py:261-265,
      viewers/diagramobject.py:668-672) *)
  Definition force_format (d : diagram T) : formatter ekey := fun e =>
    let* f := edge_force d e in Ok [Number (nabs f)].
  Definition length_format (d : diagram T) : formatter ekey := fun e =>
    let* l := edge_length_2 d e in Ok [Number (nabs l)].

  (** force_format, length_format (plotters/formartist.py:277-281): the force with its
      sign, and the distance of the end points *)
  Definition form_force_format (d : diagram T) : formatter ekey := fun e =>
    let* f := edge_force d e in Ok [Number f].
  Definition form_length_format (d : diagram T) : formatter ekey := fun e =>
    let* a := node_coordinates d (fst e) in
    let* b := node_coordinates d (snd e) in
    Ok [Number (distance_point_point a b)].

  (** "f: {}\nl: {}" (plotters/topologyartist.py:267-268, plotters/formartist.py:283-284,
      viewers/diagramobject.py:674-675) *)
  Definition force_length_format (force length : formatter ekey) : formatter ekey := fun e =>
    let* f := force e in
    let* l := length e in
    Ok ([Word "f: "%string] ++ f ++ [Word newline; Word "l: "%string] ++ l).

  (** state_format (plotters/topologyartist.py:270-276, viewers/diagramobject.py:677-683).  [edge]
      is the variable of the loop that calls the formatter: the same as [x].  [is_trail] is
      the call of is_trail_edge, which a form diagram does not have. *)
  Definition state_format (d : diagram T) (is_trail : ekey -> res bool) : formatter ekey := fun e =>
    let* t := is_trail e in
    let* x := if t then edge_length_2 d e else edge_force d e in
    Ok [Number (ncopysign n1 x)].

  (** type_format (plotters/topologyartist.py:278-279, viewers/diagramobject.py:685-686) *)
  Definition edge_type_format (d : diagram T) : formatter ekey := fun e =>
    let* a := edge_get d e in
    Ok [Word match ea_type a with Some ETrail => "trail" | Some EDeviation => "deviation" | None => "None" end]%string.

  (** "f: {}\nl: {}\ns: {}" (plotters/topologyartist.py:281-282, viewers/diagramobject.py:688-689) *)
  Definition force_length_state_format (force length state : formatter ekey) : formatter ekey := fun e =>
    let* f := force e in
    let* l := length e in
    let* s := state e in
    Ok ([Word "f: "%string] ++ f ++ [Word newline; Word "l: "%string] ++ l ++ [Word newline; Word "s: "%string] ++ s).

  (** ** Plotters *)

  (** The end of _node_textlabel and _edge_textlabel of the plotters
      (plotters/topologyartist.py:234-244, 293-303, plotters/formartist.py:250-260, 292-302),
      given the dictionary tags_formatter.  [text_tag not in tags_formatter] raises TypeError
      for a dictionary, which cannot be hashed.  None is what is assigned to node_text or
      edge_text of compas_plotters' NetworkArtist (external to /repo), which keeps the keys as
      texts then. *)
  Definition plotter_labels {K} `{Eqb K} (tags_formatter : dict string (formatter K)) (ks : list K) (t : text K)
    : res (option (dict K label)) :=
    match t with
    | TextNone => Ok None
    | TextDict _ => Err TypeError
    | TextTag s =>
        match dget tags_formatter s with
        | None => Ok None
        | Some f => let* m := text_labels f ks in Ok (Some m)
        end
    end.

  (** TopologyArtist._node_textlabel (plotters/topologyartist.py:196-244) *)
  Definition topology_nodetext (d : diagram T) : text Z -> res (option (dict Z label)) :=
    plotter_labels [("xyz", gkey_format d); ("keyxyz", key_gkey_format d); ("type", node_type_format d);
                    ("sequence", sequence_format d); ("keysequence", key_sequence_format d)]%string (nodes d).

  (** TopologyArtist._edge_textlabel (plotters/topologyartist.py:246-303) *)
  Definition topology_edgetext (d : diagram T) : text ekey -> res (option (dict ekey label)) :=
    let force := force_format d in
    let length := length_format d in
    let state := state_format d (is_trail_edge d) in
    plotter_labels [("force", force); ("length", length); ("state", state);
                    ("forcelength", force_length_format force length);
                    ("forcelengthstate", force_length_state_format force length state);
                    ("type", edge_type_format d)]%string (edges d).

  (** FormArtist._node_textlabel (plotters/formartist.py:225-260) *)
  Definition form_nodetext (d : diagram T) : text Z -> res (option (dict Z label)) :=
    plotter_labels [("xyz", gkey_format d); ("keyxyz", key_gkey_format d)]%string (nodes d).

  (** FormArtist._edge_textlabel (plotters/formartist.py:262-302) *)
  Definition form_edgetext (d : diagram T) : text ekey -> res (option (dict ekey label)) :=
    let force := form_force_format d in
    let length := form_length_format d in
    plotter_labels [("force", force); ("length", length); ("forcelength", force_length_format force length)]%string (edges d).

  (** ** Viewer *)

  (** The class of the diagram that is viewed.  is_trail_edge is a method of TopologyDiagram
      (diagrams/topology/topology.py:690) and not of FormDiagram (diagrams/form.py). *)
  Inductive kind : Type := IsTopology | IsForm.
  Definition method_is_trail_edge (c : kind) (d : diagram T) (e : ekey) : res bool :=
    match c with IsTopology => is_trail_edge d e | IsForm => Err AttributeError end.

  (** type_format of the nodes (viewers/diagramobject.py:634-635): DiagramObject and its base class
      (compas_view2, external to /repo) have no attribute [topology]. *)
  Definition viewer_node_type_format : formatter Z := fun _ => Err AttributeError.

  (** _node_textlabel (viewers/diagramobject.py:614-651) *)
  Definition viewer_node_textlabel (d : diagram T) (ns : list Z) (s : string) : res (option (dict Z label)) :=
    plotter_labels [("xyz", gkey_format d); ("keyxyz", key_gkey_format d); ("type", viewer_node_type_format)]%string ns (TextTag s).

  (** _edge_textlabel (viewers/diagramobject.py:653-708) *)
  Definition viewer_edge_textlabel (c : kind) (d : diagram T) (es : list ekey) (s : string) : res (option (dict ekey label)) :=
    let force := force_format d in
    let length := length_format d in
    let state := state_format d (method_is_trail_edge c d) in
    plotter_labels [("force", force); ("length", length); ("state", state);
                    ("forcelength", force_length_format force length);
                    ("forcelengthstate", force_length_state_format force length state);
                    ("type", edge_type_format d)]%string es (TextTag s).

  (** { key : text(key) for key in keys } *)
  Definition texts {K} `{Eqb K} (f : K -> label) (ks : list K) : dict K label :=
    fold_left (fun m k => dset m k (f k)) ks [].
  (** { node: str(node) ... } and { edge: "{}-{}".format( *edge ) ... }
      (viewers/diagramobject.py:265, 272, 281, 288) *)
  Definition node_keys (d : diagram T) : dict Z label := texts (fun n => [Key n]) (nodes d).
  Definition edge_keys (d : diagram T) : dict ekey label :=
    texts (fun e : ekey => [Key (fst e); Word "-"%string; Key (snd e)]) (edges d).

  (** The setters of node_text and edge_text (viewers/diagramobject.py:268-276, 284-292):
      [prev] is the value before, [keys] the texts for 'key', [labels] the method called. *)
  Definition set_text {K} (keys : dict K label) (labels : string -> res (option (dict K label)))
      (prev : option (dict K label)) (t : text K) : res (option (dict K label)) :=
    match t with
    | TextNone => Ok prev
    | TextTag s => if String.eqb s "key" then Ok (Some keys) else labels s
    | TextDict m => Ok (Some m)
    end.

  (** The getters (viewers/diagramobject.py:262-266, 278-282) *)
  Definition get_text {K} (keys : dict K label) (cur : option (dict K label)) : dict K label :=
    match cur with
    | None | Some [] => keys
    | Some m => m
    end.

  (** compas.datastructures.Network.edge_midpoint (external to /repo) *)
  Definition edge_midpoint (d : diagram T) (e : ekey) : res (vec T) :=
    let* a := node_coordinates d (fst e) in
    let* b := node_coordinates d (snd e) in
    Ok (scale_vector (add_vectors a b) (ndiv n1 (nadd n1 n1))).

  (** The object is made with the given text (viewers/diagramobject.py:157-181) and its labels are drawn
      (draw_nodetext, viewers/diagramobject.py:519-535) with a viewer attached and the labels
      shown: the text handed over for every node, and where.  None is the text of a node
      that the dictionary does not have. *)
  Definition viewer_nodetext (d : diagram T) (ns : list Z) (t : text Z) : res (list (option label * vec T)) :=
    let* cur := set_text (node_keys d) (viewer_node_textlabel d ns) None t in
    let m := get_text (node_keys d) cur in
    map_res (fun n => let* p := node_coordinates d n in Ok (dget m n, p)) ns.

  (** The same for edges (draw_edgetext, viewers/diagramobject.py:537-554).  The text of an edge that the
      dictionary does not have is that of its node [v] or the number [u]; simplification: no dictionary
      has both edges and nodes as keys, and it is [u]. *)
  Definition viewer_edgetext (c : kind) (d : diagram T) (es : list ekey) (t : text ekey) : res (list ((label + Z) * vec T)) :=
    let* cur := set_text (edge_keys d) (viewer_edge_textlabel c d es) None t in
    let m := get_text (edge_keys d) cur in
    map_res (fun e : ekey =>
      let* p := edge_midpoint d e in
      Ok (match dget m e with Some l => inl l | None => inr (fst e) end, p)) es.
End Labels.
Arguments piece T : clear implicits.
Arguments label T : clear implicits.
Arguments text T K : clear implicits.
Arguments TextNone {T K}.
Arguments TextTag {T K} s.
Arguments TextDict {T K} m.
