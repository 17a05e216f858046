(** * Vocabulary of the drawing properties

    Only public queries of a diagram are used here. *)

From Coq Require Import String List ZArith Bool Reals Permutation.
From Verif Require Import Py Num Diagram Topology RVec SpecStatics Artists.
Import ListNotations.
Open Scope Z_scope.

(** The colors of the documentation *)
Definition red : rgb := (227, 6, 75).
Definition blue : rgb := (12, 119, 184).
Definition gray : rgb := (50, 50, 50).
Definition white : rgb := (255, 255, 255).
Definition black : rgb := (0, 0, 0).
Definition green : rgb := (0, 150, 10).
Definition violet : rgb := (155, 100, 255).
Definition purple : rgb := (180, 0, 255).
Definition lime : rgb := (127, 255, 0).
Definition coral : rgb := (255, 100, 47).
Definition orange : rgb := (255, 155, 15).

Section Spec.
  Context {T : Type} `{NumOps T}.
  Implicit Types (d : diagram T).

  (** The edges listed have forces. *)
  Definition forces_known d (es : list ekey) : Prop := forall e, In e es -> exists f, edge_force d e = Ok f.

  (** The dictionary has exactly the listed keys. *)
  Definition keyed {K V} `{Eqb K} (m : dict K V) (ks : list K) : Prop := forall k, dmem m k = true <-> In k ks.

  (** What an edge is drawn as: auxiliary trail, trail, direct or indirect deviation *)
  Inductive looks d : ekey -> rgb -> Prop :=
  | looks_auxiliary e : is_auxiliary_trail_edge d e = true -> looks d e orange
  | looks_trail e : is_auxiliary_trail_edge d e = false -> In e (trail_edges d) -> looks d e purple
  | looks_untraced e : is_auxiliary_trail_edge d e = false -> In e (deviation_edges d) -> trails d = [] -> looks d e lime
  | looks_direct u v k : is_auxiliary_trail_edge d (u, v) = false -> In (u, v) (deviation_edges d) -> trails d <> [] ->
      node_sequence d u = Ok k -> node_sequence d v = Ok k -> looks d (u, v) lime
  | looks_indirect u v k l : is_auxiliary_trail_edge d (u, v) = false -> In (u, v) (deviation_edges d) -> trails d <> [] ->
      node_sequence d u = Ok k -> node_sequence d v = Ok l -> k <> l -> looks d (u, v) coral.

  (** Trails have been built for all the nodes, or not at all. *)
  Definition drawable d : Prop :=
    trails d = [] \/ forall n, In n (nodes d) -> exists k, node_sequence d n = Ok k.

  (** The groups drawn, each in one color, make up the edges, and every edge has its color. *)
  Definition drawn_as (es : list ekey) (out : list (rgb * list ekey)) (P : ekey -> rgb -> Prop) : Prop :=
    Permutation (flat_map snd out) es /\ forall c l e, In (c, l) out -> In e l -> P e c.

  (** The lines between the ends of the edges, one after the other *)
  Definition drawn_lines d (es : list ekey) (l : list (vec T * vec T)) : Prop :=
    Forall2 (fun (e : ekey) ab => node_coordinates d (fst e) = Ok (fst ab) /\ node_coordinates d (snd e) = Ok (snd ab)) es l.
  Definition drawn_points d (ns : list Z) (l : list (vec T)) : Prop :=
    Forall2 (fun n p => node_coordinates d n = Ok p) ns l.

  (** What is drawn out of a selection is its edges of the kind asked for. *)
  Definition draws_edges d (es : list ekey) (r : res (option (list (vec T * vec T)))) : Prop :=
    match es with
    | [] => r = Ok None
    | _ => exists l, r = Ok (Some l) /\ drawn_lines d es l
    end.
  Definition draws_nodes d (ns : list Z) (r : res (option (list (vec T)))) : Prop :=
    match ns with
    | [] => r = Ok None
    | _ => exists l, r = Ok (Some l) /\ drawn_points d ns l
    end.

  (** The colors [m] tell supports, origins and other nodes apart. *)
  Definition node_colors d (ns : list Z) (m : dict Z rgb) (support origin other : rgb) : Prop :=
    keyed m ns /\ forall n, In n ns ->
      (In n (support_nodes d) -> dget m n = Some support)
      /\ (In n (origin_nodes d) -> dget m n = Some origin)
      /\ (~ In n (support_nodes d) -> ~ In n (origin_nodes d) -> dget m n = Some other).
End Spec.

(** ** Real numbers *)

(** The smallest and the largest magnitude of a force *)
Record force_range (d : diagram R) (es : list ekey) (m M : R) : Prop := {
  fr_low : exists e f, In e es /\ edge_force d e = Ok f /\ Rabs f = m;
  fr_high : exists e f, In e es /\ edge_force d e = Ok f /\ Rabs f = M;
  fr_all : forall e f, In e es -> edge_force d e = Ok f -> (m <= Rabs f <= M)%R
}.

(** The width of an edge with force [f]: [low] for the smallest magnitude, [high] for
    the largest, proportional in between; [high] if all magnitudes are equal *)
Definition proportional (low high m M f w : R) : Prop :=
  (m = M -> w = high) /\ (m < M -> w = low + (Rabs f - m) / (M - m) * (high - low))%R.

(** What an edge of a form is drawn as: in tension, in compression or unloaded *)
Inductive stressed (d : diagram R) (zero : rgb) : ekey -> rgb -> Prop :=
| in_tension e f : edge_force d e = Ok f -> (0 < f)%R -> stressed d zero e red
| in_compression e f : edge_force d e = Ok f -> (f < 0)%R -> stressed d zero e blue
| unloaded e : edge_force d e = Ok 0%R -> stressed d zero e zero.

(** What an edge of a topology is drawn as, by the sign of the length or of the force a
    user gave it *)
Inductive state (d : diagram R) : ekey -> rgb -> Prop :=
| state_auxiliary e : is_auxiliary_trail_edge d e = true -> state d e orange
| state_trail e l : is_auxiliary_trail_edge d e = false -> In e (trail_edges d) -> edge_length_2 d e = Ok l ->
    state d e (if Rltb l 0 then blue else red)
| state_deviation e f : is_auxiliary_trail_edge d e = false -> In e (deviation_edges d) -> edge_force d e = Ok f ->
    state d e (if Rltb f 0 then blue else red).

(** The force a user sees at a node *)
Definition acting (w : drawn) (d : diagram R) (n : Z) : rvec :=
  match w with Load => load d n | Reaction => reaction d n end.

(** Every node of the list has an edge, and its edges have forces. *)
Definition held_by_edges (d : diagram R) (ns : list Z) : Prop :=
  forall n, In n ns -> In n (nodes d) /\ exists es, connected_edges d n = Ok es /\ es <> [] /\ forces_known d es.

(** An arrow for the force at [n]: it is the scaled force, and it leaves the node
    with a gap, or arrives at the node with a gap. *)
Record arrow_at (d : diagram R) (w : drawn) (scale gap : R) (arrives : bool) (n : Z) (a : arrow (T:=R)) : Prop := {
  ar_vector : a_end a -v a_start a = scale *v acting w d n;
  ar_place : if arrives then a_end a = position d n -v gap *v direction (acting w d n)
             else a_start a = position d n +v gap *v direction (acting w d n)
}.

(** The arrows [l] are those of the nodes [ns] whose force is not smaller than [tol]. *)
Record arrows_of (d : diagram R) (w : drawn) (ns : list Z) (scale tol : R) (gap : Z -> R) (arrives : Z -> bool)
    (l : list (Z * arrow (T:=R))) : Prop := {
  ao_which : map fst l = filter (fun n => negb (Rltb (magnitude (acting w d n)) tol)) ns;
  ao_each : forall n a, In (n, a) l -> arrow_at d w scale (gap n) (arrives n) n a
}.

(** [f] is the force of an edge of [n] that is not exceeded by the others in magnitude. *)
Definition leads (d : diagram R) (n : Z) (f : R) : Prop :=
  exists es, connected_edges d n = Ok es
    /\ (exists e, In e es /\ edge_force d e = Ok f)
    /\ forall e g, In e es -> edge_force d e = Ok g -> (Rabs g <= Rabs f)%R.

(** The point [p] is not on the side of the node [n] where its edge [e] is. *)
Definition beyond (d : diagram R) (n : Z) (e : ekey) (p : rvec) : Prop :=
  (dot (p -v position d n) (position d (far_end e n) -v position d n) <= 0)%R.
