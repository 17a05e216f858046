(** * Vocabulary of small changes, over the real numbers

    What it means that the input of form finding changes a little or smoothly, and that a
    form does.  Only public queries of diagrams are used. *)

From Coq Require Import List ZArith Bool Reals.
From Verif Require Import Py Num Diagram Topology RVec SpecStatics SpecTopology SpecEquilibrium.
Import ListNotations.
Open Scope R_scope.

Section Spec.
  Implicit Types (d f : diagram R).

  (** The same nodes, edges, trails, sequences, supports and kinds of edges: the diagrams
      differ in numbers at most. *)
  Record same_layout d d' : Prop := {
    ly_nodes : nodes d' = nodes d;
    ly_edges : edges d' = edges d;
    ly_trail_edges : trail_edges d' = trail_edges d;
    ly_deviation_edges : deviation_edges d' = deviation_edges d;
    ly_trails : trails d' = trails d;
    ly_sequences : forall n, In n (nodes d) -> node_sequence d' n = node_sequence d n;
    ly_supports : forall n, In n (nodes d) -> is_node_support d' n = is_node_support d n;
    ly_planes : forall e, In e (trail_edges d) -> (edge_plane d' e = Ok None <-> edge_plane d e = Ok None)
  }.

  (** The length given for an edge, and origin and normal of the plane given for it *)
  Definition given_length d (e : ekey) : R := value 0 (edge_length_2 d e).
  Definition plane_of d (e : ekey) : rvec * rvec :=
    match edge_plane d e with Ok (Some p) => p | _ => (v0, v0) end.

  (** Every deviation edge of the form has its ends apart. *)
  Definition apart d f : Prop := forall u v, In (u, v) (deviation_edges d) -> position f u <> position f v.

  (** Every trail edge with a plane clearly meets it, or clearly runs along it: it is not
      at the tolerance, and does not start on the plane. *)
  Definition definite d f : Prop := forall n m e o nrm, follows d n m -> edge_between d n m e ->
    edge_plane d e = Ok (Some (o, nrm)) ->
    let c := Rabs (dot nrm (direction (position f m -v position f n))) in
    c < / 1000000 \/ (/ 1000000 < c /\ ~ on_plane (position f n) o nrm).

  (** Numbers and vectors that differ by less than [delta] *)
  Definition near_by (delta x y : R) : Prop := Rabs (x - y) < delta.
  Definition near_by_v (delta : R) (u w : rvec) : Prop :=
    near_by delta (vx u) (vx w) /\ near_by delta (vy u) (vy w) /\ near_by delta (vz u) (vz w).

  (** The inputs of [d'] differ from those of [d] by less than [delta]: the places of the
      origins, the loads, the forces of deviation edges, the lengths of trail edges and
      their planes. *)
  Record similar_inputs (delta : R) d d' : Prop := {
    si_origins : forall key tr, In (key, tr) (trails d) -> near_by_v delta (position d' key) (position d key);
    si_loads : forall n, In n (nodes d) -> near_by_v delta (load d' n) (load d n);
    si_forces : forall e, In e (deviation_edges d) -> near_by delta (force d' e) (force d e);
    si_lengths : forall e, In e (trail_edges d) -> near_by delta (given_length d' e) (given_length d e);
    si_planes : forall e, In e (trail_edges d) -> near_by_v delta (fst (plane_of d' e)) (fst (plane_of d e))
      /\ near_by_v delta (snd (plane_of d' e)) (snd (plane_of d e))
  }.

  (** The positions, reactions and forces of the form [f'] differ from those of [f] by less
      than [epsilon]. *)
  Record similar_forms (epsilon : R) d f f' : Prop := {
    sf_positions : forall n, In n (nodes d) -> near_by_v epsilon (position f' n) (position f n);
    sf_reactions : forall n, In n (nodes d) -> near_by_v epsilon (reaction f' n) (reaction f n);
    sf_forces : forall e, In e (edges d) -> near_by epsilon (force f' e) (force f e)
  }.
End Spec.

(** A vector that depends on a number is derivable if its components are. *)
Definition has_derivative (g : R -> R) (s : R) : Prop := exists l, derivable_pt_lim g s l.
Definition has_derivative_v (u : R -> rvec) (s : R) : Prop :=
  has_derivative (fun x => vx (u x)) s /\ has_derivative (fun x => vy (u x)) s /\ has_derivative (fun x => vz (u x)) s.

(** The inputs of the topologies [D x] have derivatives with respect to [x] at [s]. *)
Record smooth_inputs (D : R -> diagram R) (s : R) : Prop := {
  sm_origins : forall key tr, In (key, tr) (trails (D s)) -> has_derivative_v (fun x => position (D x) key) s;
  sm_loads : forall n, In n (nodes (D s)) -> has_derivative_v (fun x => load (D x) n) s;
  sm_forces : forall e, In e (deviation_edges (D s)) -> has_derivative (fun x => force (D x) e) s;
  sm_lengths : forall e, In e (trail_edges (D s)) -> has_derivative (fun x => given_length (D x) e) s;
  sm_planes : forall e, In e (trail_edges (D s)) -> has_derivative_v (fun x => fst (plane_of (D x) e)) s
    /\ has_derivative_v (fun x => snd (plane_of (D x) e)) s
}.

(** The positions, reactions and forces of the forms [F x] of the topologies [D x] have derivatives at [s]. *)
Record smooth_forms (D F : R -> diagram R) (s : R) : Prop := {
  so_positions : forall n, In n (nodes (D s)) -> has_derivative_v (fun x => position (F x) n) s;
  so_reactions : forall n, In n (nodes (D s)) -> has_derivative_v (fun x => reaction (F x) n) s;
  so_forces : forall e, In e (edges (D s)) -> has_derivative (fun x => force (F x) e) s
}.
