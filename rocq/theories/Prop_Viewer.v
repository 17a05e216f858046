(** * Properties of viewer objects (C99 to C101)

    Generated by tools/gen_props.py from the lemmas of ViewerThms.v and WitnessViewer.v.  The
    vocabulary is in SpecViewer.v. *)

From Coq Require Import String List ZArith Bool Floats Reals Lra.
From Verif Require Import Py PyFacts Num Diagram DiagramFacts Topology Equilibrium History HistoryFacts Fixtures SpecDiagram SpecTopology SpecEquilibrium
  RVec SpecStatics Artists SpecArtists ArtistThms Labels ViewerObject SpecViewer ViewerThms Witness WitnessEq WitnessDraw WitnessViewer.
Import ListNotations.
Open Scope Z_scope.

Section Generic.
  Context {T : Type} `{NumOps T}.
  Implicit Types (d : diagram T) (o : vobj T) (df : defaults T).

  (** A number other than zero that is assigned to a setting is what is read, until
      another number is assigned to it. *)
  Theorem C99_partial : forall c df o s x us, ntruthy x = true -> (forall u, In u us -> leaves s u) ->
    shows df s (used c df (after_use c df o (assign s (Some x))) us) x.
  Proof. exact c99_partial. Qed.
  (** What is read stays until a number is assigned to the setting; None is not a number. *)
  Theorem C99_stays : forall c df o s x us, shows df s o x -> (forall u, In u us -> leaves s u) -> shows df s (used c df o us) x.
  Proof. exact c99_stays. Qed.
  (** A number other than zero that is given for a new object is what is read; if none
      is given, it is the default. *)
  Theorem C99_new : forall c df d a o dr s, new_object c df d a = (o, Ok dr) ->
    (forall x, option_of a s = Some x -> ntruthy x = true -> shows df s o x)
    /\ (option_of a s = None -> shows df s o (default df s)).
  Proof. exact c99_new. Qed.
  (** The points of an object and its lines are visible as asked for last. *)
  Theorem C73_objects : forall c df o b us,
    ((forall u, In u us -> forall x, u <> UShowNodes x) -> fl_points (vo_flags (used c df o (UShowNodes b :: us))) = b)
    /\ ((forall u, In u us -> forall x, u <> UShowEdges x) -> fl_lines (vo_flags (used c df o (UShowEdges b :: us))) = b).
  Proof. exact c73_objects. Qed.
  (** So they are when the object is made. *)
  Theorem C73_new : forall c df d a o dr, new_object c df d a = (o, Ok dr) ->
    fl_points (vo_flags o) = op_show_nodes a /\ fl_lines (vo_flags o) = op_show_edges a.
  Proof. exact c73_new. Qed.
  (** The nodes selected last are drawn where they are, in the color of what they are,
      whatever the object was used for before, as long as neither a diagram nor coordinates
      were assigned to it. *)
  Theorem C101_nodes : forall c df d a o dr us ns, produced d -> new_object c df d a = (o, Ok dr) -> op_nodes a = None ->
    (forall u, In u us -> same_diagram u) -> (forall n, In n ns -> In n (nodes d)) ->
    exists out, snd (draw_nodes c (used c df o (us ++ [UNodes (Some ns)]))) = Ok out /\ points_of c d ns out.
  Proof. exact c101_nodes. Qed.
  (** Loads and reactions are drawn for the diagram that was assigned last, for all its nodes. *)
  Theorem C101_assigned : forall c df o d us, (forall u, In u us -> match u with UDiagram _ | UNodes _ => False | _ => True end) ->
    let o' := used c df o (UDiagram d :: us) in
    (forall s t, shows df LoadScale o' s -> shows df LoadTol o' t -> snd (draw_loads df o') = viewer_loads d (nodes d) s t)
    /\ (forall s t, shows df ResidualScale o' s -> shows df ResidualTol o' t -> snd (draw_residuals df o') = viewer_residuals d (nodes d) s t).
  Proof. exact c101_assigned. Qed.
End Generic.

(** A tolerance of zero is replaced by the default: a load that is not below zero is not drawn. *)
Theorem C99_refuted : exists (d : diagram float) o dr o', reachable d /\ new_object IsTopology standard d no_options = (o, Ok dr)
  /\ o' = used IsTopology standard o [ULoadTol (Some 0%float)]
  /\ shows standard LoadTol o' 0x1.0624dd2f1a9fcp-10%float /\ snd (draw_loads standard o') = Ok []
  /\ exists l, viewer_loads d (nodes d) 1%float 0%float = Ok l /\ map fst l = [0; 1].
Proof. exact c99_refuted. Qed.
(** A new object hands over: its edges as cylinders between their nodes, each in its color
  and width; and an arrow for every load and every reaction that is not below the tolerance. *)
Theorem C100_made : forall c df (d : diagram R) a cur,
  let ns := chosen (op_nodes a) (nodes d) in let es := chosen (op_edges a) (edges d) in
  let widths := viewer_width es (df_width df) cur in
  produced d -> presentable c d es -> (forall n, In n ns -> In n (nodes d)) ->
  viewer_set_width d es None (op_width a) = Ok cur -> (forall e, In e es -> exists x, dget widths e = Some x) ->
  (0 <= given (op_lscale a) (df_lscale df))%R -> (0 <= given (op_rscale a) (df_rscale df))%R ->
  (c = IsForm -> op_show_residuals a = true -> held_by_edges d ns) ->
  exists o dr, new_object c df d a = (o, Ok dr)
  /\ (op_show_edges a = true -> cylinders_of c d es (fun e x => dget widths e = Some x) (dr_edges dr))
  /\ (op_show_edges a = false -> dr_edges dr = [])
  /\ (if op_show_loads a then exists l, dr_loads dr = Some l
        /\ arrows_of d Load (nodup Z.eq_dec ns) (given (op_lscale a) (df_lscale df)) (given (op_ltol a) (df_ltol df)) (fun _ => 0%R) (fun _ => false) l
      else dr_loads dr = None)
  /\ (if match c with IsForm => op_show_residuals a | IsTopology => false end then exists l arrives, dr_residuals dr = Some l
        /\ (forall n, In n ns -> exists f, leads d n f /\ (arrives n = true <-> (f < 0)%R))
        /\ arrows_of d Reaction (nodup Z.eq_dec ns) (given (op_rscale a) (df_rscale df)) (given (op_rtol a) (df_rtol df)) (fun _ => 0%R) arrives l
      else dr_residuals dr = None).
Proof. exact c100_made. Qed.
(** Edges drawn as lines are those selected last, between the places of their nodes, as long
  as the object was made for all the edges, and neither a diagram nor coordinates were
  assigned to it. *)
Theorem C101_lines : forall c df (d : diagram R) a o dr cur us es,
  new_object c df d a = (o, Ok dr) -> op_edges a = None ->
  viewer_set_width d (edges d) None (op_width a) = Ok cur -> presentable c d (edges d) ->
  (forall u, In u us -> same_diagram u) -> (forall e, In e es -> In e (edges d)) ->
  exists out, snd (draw_edges2 c (used c df o (us ++ [UEdges (Some es)]))) = Ok out /\ lines_of c d es out.
Proof. exact c101_lines. Qed.
(** Edges that are selected later are drawn, and only they, if no edges were drawn before
  and the object was made for all the edges. *)
Theorem C101_edges_partial : forall c df (d : diagram R) a o dr cur us es,
  new_object c df d a = (o, Ok dr) -> op_edges a = None -> op_show_edges a = false ->
  viewer_set_width d (edges d) None (op_width a) = Ok cur -> presentable c d (edges d) ->
  (forall u, In u us -> no_edges u) -> (forall e, In e es -> In e (edges d)) ->
  (forall e, In e es -> exists x, dget (viewer_width es (df_width df) cur) e = Some x) ->
  exists out, snd (draw_edges c df (used c df o (us ++ [UEdges (Some es); UShowEdges true]))) = Ok out
    /\ cylinders_of c d es (fun e x => dget (viewer_width es (df_width df) cur) e = Some x) out.
Proof. exact c101_edges_partial. Qed.
(** When edges have been drawn, a selection that leaves one of them out cannot be drawn, and
  a selection with more edges is drawn without these. *)
Theorem C101_edges_refuted : exists (d : diagram float) o dr e, reachable d
  /\ new_object IsTopology standard d no_options = (o, Ok dr) /\ In e (edges d)
  /\ snd (draw_edges IsTopology standard (used IsTopology standard o [UEdges (Some [e])])) = Err KeyError
  /\ exists o1 dr1 out, new_object IsTopology standard d
        (mkOptions None (Some [e]) None WNone None None None None false true true true) = (o1, Ok dr1)
     /\ snd (draw_edges IsTopology standard (used IsTopology standard o1 [UEdges None; UWidth (WNumber 1%float)])) = Ok out
     /\ length (flat_map snd out) = 1%nat /\ length (edges d) <> 1%nat.
Proof. exact c101_edges_refuted. Qed.
(** When nodes have been drawn, they are drawn in the same places after another diagram has
  been assigned, while the edges are drawn in their new places. *)
Theorem C101_refuted : exists (d d' : diagram float) o dr o' cyl ps cs els, reachable d /\ reachable d'
  /\ new_object IsTopology standard d no_options = (o, Ok dr)
  /\ o' = used IsTopology standard o [UDrawNodes; UDiagram d']
  /\ snd (draw_nodes IsTopology o') = Ok (ps, cs, els) /\ node_coordinates d 0 = Ok (nth 0 ps vzero)
  /\ nth 0 ps vzero = V3 0%float 0%float 0%float /\ node_coordinates d' 0 = Ok (V3 5%float 0%float 0%float)
  /\ snd (draw_edges IsTopology standard o') = Ok [(purple, [cyl])] /\ cy_center cyl = V3 5%float 1%float 0%float.
Proof. exact c101_refuted. Qed.
Print Assumptions C99_partial.
Print Assumptions C99_stays.
Print Assumptions C99_new.
Print Assumptions C73_objects.
Print Assumptions C73_new.
Print Assumptions C101_nodes.
Print Assumptions C101_assigned.
Print Assumptions C99_refuted.
Print Assumptions C100_made.
Print Assumptions C101_lines.
Print Assumptions C101_edges_partial.
Print Assumptions C101_edges_refuted.
Print Assumptions C101_refuted.

(** ** The hypotheses can be met *)

(** A setting that is assigned before another is and drawings are made *)
Example C99_nonvacuous : exists o dr, new_object IsTopology standard tower_built no_options = (o, Ok dr)
  /\ ntruthy 3%float = true
  /\ (forall u, In u [USize (Some 4%float); UDrawLoads; ULoadScale None; UDrawEdges] -> leaves LoadScale u)
  /\ shows standard LoadScale o 1%float
  /\ option_of (mkOptions None None None WNone (Some 2%float) None None None false true true true) LoadScale = Some 2%float
  /\ option_of (@no_options float) LoadScale = None.
Proof.
  do 2 eexists. split; [vm_compute; reflexivity|]. split; [reflexivity|].
  split; [intros u I x; destruct I as [<-|[<-|[<-|[<-|[]]]]]; discriminate|].
  split; [vm_compute; reflexivity|]. split; reflexivity.
Qed.

(** A form that was found is drawn with all its edges, loads and reactions. *)
Example C100_nonvacuous : exists form, static_equilibrium rchain None 100 (/ 1000000)%R false = Ok form
  /\ produced form /\ edges form <> [] /\ presentable IsForm form (edges form)
  /\ viewer_set_width form (edges form) None (op_width (@no_options R)) = Ok None
  /\ (forall e, In e (edges form) -> exists x, dget (viewer_width (edges form) (df_width metric) None) e = Some x)
  /\ (0 <= given (op_lscale (@no_options R)) (df_lscale metric))%R /\ held_by_edges form (nodes form).
Proof. exact rchain_pictured. Qed.

(** An object for the nodes of a tower, which are selected after a drawing *)
Example C101_nonvacuous : exists o dr, produced tower_built /\ new_object IsTopology standard tower_built no_options = (o, Ok dr)
  /\ (forall u, In u [UDrawNodes (T:=float); UNodes (Some [2]); UDrawLoads] -> same_diagram u)
  /\ (forall n, In n [4; 1] -> In n (nodes tower_built)).
Proof.
  do 2 eexists. split; [left; apply tower_built_reachable|]. split; [vm_compute; reflexivity|].
  split; [intros u [<-|[<-|[<-|[]]]]; exact I|].
  intros n I; destruct I as [<-|[<-|[]]]; vm_compute; tauto.
Qed.

(** An object that is made without drawing its edges *)
Example C101_edges_nonvacuous : exists form o dr,
  static_equilibrium rchain None 100 (/ 1000000)%R false = Ok form
  /\ new_object IsForm metric form hidden_edges = (o, Ok dr) /\ presentable IsForm form (edges form)
  /\ (forall u, In u [UDrawNodes; UDrawLoads (T:=R)] -> no_edges u)
  /\ In (1, 2) (edges form) /\ edges form <> [(1, 2)]
  /\ exists x, dget (viewer_width [(1, 2)] (df_width metric) None) (1, 2) = Some x.
Proof.
  destruct rchain_hidden as (form&o&dr&E&En&P&I&Ne). exists form, o, dr. split; [exact E|]. split; [exact En|]. split; [exact P|].
  split; [intros u [<-|[<-|[]]]; exact Logic.I|]. split; [exact I|]. split; [exact Ne|]. eexists. reflexivity.
Qed.
