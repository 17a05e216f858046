(** * Vocabulary of the properties of viewer objects *)

From Coq Require Import String List ZArith Bool Reals Permutation.
From Verif Require Import Py Num Diagram Topology SpecEquilibrium RVec SpecStatics Artists SpecArtists Labels ViewerObject.
Import ListNotations.
Open Scope Z_scope.

(** The numbers a user can set *)
Inductive setting : Type := NodeSize | LoadScale | LoadTol | ResidualScale | ResidualTol.

Section Spec.
  Context {T : Type} `{NumOps T}.
  Implicit Types (d : diagram T) (o : vobj T) (df : defaults T).

  (** Reading and assigning a setting *)
  Definition read df (s : setting) : vobj T -> vobj T * res T :=
    match s with
    | NodeSize => get_size df
    | LoadScale => get_load_scale df
    | LoadTol => get_load_tol df
    | ResidualScale => get_residual_scale df
    | ResidualTol => get_residual_tol df
    end.
  Definition assign (s : setting) (x : option T) : use T :=
    match s with
    | NodeSize => USize x
    | LoadScale => ULoadScale x
    | LoadTol => ULoadTol x
    | ResidualScale => UResidualScale x
    | ResidualTol => UResidualTol x
    end.
  Definition default df (s : setting) : T :=
    match s with
    | NodeSize => df_size df
    | LoadScale => df_lscale df
    | LoadTol => df_ltol df
    | ResidualScale => df_rscale df
    | ResidualTol => df_rtol df
    end.
  Definition option_of (a : options T) (s : setting) : option T :=
    match s with
    | NodeSize => op_size a
    | LoadScale => op_lscale a
    | LoadTol => op_ltol a
    | ResidualScale => op_rscale a
    | ResidualTol => op_rtol a
    end.

  (** A user who reads the setting sees [x]. *)
  Definition shows df (s : setting) o (x : T) : Prop := snd (read df s o) = Ok x.

  (** Uses that do not assign the setting a number *)
  Definition leaves (s : setting) (u : use T) : Prop := forall x, u <> assign s (Some x).

  (** What is selected: what is given, or all *)
  Definition chosen {A} (sel : option (list A)) (all : list A) : list A :=
    match sel with Some l => l | None => all end.

  (** The use assigns neither a diagram nor coordinates. *)
  Definition same_diagram (u : use T) : Prop :=
    match u with UDiagram _ | UXyz _ => False | _ => True end.

  (** Edges are left alone: neither selected, drawn nor given a width *)
  Definition no_edges (u : use T) : Prop :=
    match u with UEdges _ | UWidth _ | UDrawEdges | UDrawLines => False | _ => same_diagram u end.

  (** The points drawn for the nodes [ns] *)
  Record points_of (c : kind) d (ns : list Z) (out : list (vec T) * list rgb * list (list Z)) : Prop := {
    po_places : drawn_points d ns (fst (fst out));
    po_colors : Forall2 (fun n k => (In n (support_nodes d) -> k = green)
                  /\ (c = IsTopology -> In n (origin_nodes d) -> k = violet)
                  /\ (~ In n (support_nodes d) -> (c = IsTopology -> ~ In n (origin_nodes d)) -> k = black)) ns (snd (fst out));
    po_elements : snd out = map (fun i => [Z.of_nat i]) (seq 0 (length ns))
  }.
End Spec.

(** The edges [es] can be drawn: those of a form have forces, those of a topology a kind. *)
Definition presentable (c : kind) (d : diagram R) (es : list ekey) : Prop :=
  (forall e, In e es -> In (fst e) (nodes d) /\ In (snd e) (nodes d))
  /\ match c with
     | IsForm => forces_known d es
     | IsTopology => produced d /\ drawable d /\ forall e, In e es -> In e (edges d)
     end.

(** What an edge is drawn as *)
Definition pictured (c : kind) (d : diagram R) : ekey -> rgb -> Prop :=
  match c with IsForm => stressed d red | IsTopology => looks d end.

(** The cylinder is around the segment between the nodes of [e], with diameter [x]. *)
Record around (d : diagram R) (e : ekey) (x : R) (c : cylinder R) : Prop := {
  ar_from : cy_center c -v (cy_height c / 2)%R *v direction (cy_axis c) = position d (fst e);
  ar_to : cy_center c +v (cy_height c / 2)%R *v direction (cy_axis c) = position d (snd e);
  ar_diameter : (cy_radius c + cy_radius c = x)%R
}.

(** The groups of cylinders are those of the edges [es], each in its color and width. *)
Definition cylinders_of (c : kind) (d : diagram R) (es : list ekey) (width : ekey -> R -> Prop)
    (out : list (rgb * list (cylinder R))) : Prop :=
  exists groups, drawn_as es groups (pictured c d)
    /\ Forall2 (fun g o => fst g = fst o
         /\ Forall2 (fun e cyl => exists x, width e x /\ around d e x cyl) (snd g) (snd o)) groups out.

(** A number that was given, unless it is zero *)
Definition given (x : option R) (default : R) : R :=
  match x with Some x => if Reqb x 0 then default else x | None => default end.

(** The lines drawn for the edges [es]: for each edge the places of its nodes, twice its
    color, and the indices of the two places *)
Record lines_of (c : kind) (d : diagram R) (es : list ekey) (out : list rvec * list rgb * list (list Z)) : Prop := {
  li_places : fst (fst out) = flat_map (fun e => [position d (fst e); position d (snd e)]) es;
  li_colors : exists ks, snd (fst out) = flat_map (fun k => [k; k]) ks /\ Forall2 (pictured c d) es ks;
  li_elements : snd out = map (fun i => [2 * Z.of_nat i; 2 * Z.of_nat i + 1]) (seq 0 (List.length es))
}.
