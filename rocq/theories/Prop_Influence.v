(** * Properties of what influences the form (C74 - C76, C88)

    Generated by tools/gen_props.py from the lemmas of InfluenceThms.v, IterThms.v,
    SymmetryThms.v, WitnessInfluence.v and WitnessSymmetry.v.  The vocabulary is in
    SpecInfluence.v and SpecSymmetry.v. *)

From Coq Require Import String List ZArith Bool Lia Permutation Floats Reals Lra.
From Verif Require Import Py PyFacts Num Diagram DiagramFacts Topology Equilibrium History Fixtures SpecDiagram SpecTopology SpecEquilibrium
  RVec SpecStatics SpecInfluence SpecTransform SpecSymmetry InfluenceThms IterThms SymmetryThms
  Witness WitnessEq WitnessInfluence WitnessSymmetry.
Import ListNotations.
Open Scope Z_scope.

(** ** Names, orders and directions *)

(** C74: the form does not depend on the names of the nodes, on the order in which nodes,
  edges and trails were added or on the direction in which edges were given, if there are
  no indirect deviation edges. *)
Theorem C74_renamed_partial : forall pi (d d' : diagram R) tmax eta verbose tmax' eta' verbose' form form',
  reachable d -> ready d -> reachable d' -> ready d' -> direct_only d -> renamed pi d d' ->
  static_equilibrium d None tmax eta verbose = Ok form ->
  static_equilibrium d' None tmax' eta' verbose' = Ok form' ->
  renamed pi form form'.
Proof. exact c74_renamed_partial. Qed.
(** Two rows, each built up from the left: after two passes the right end of the first row is
  elsewhere if the second row was added first. *)
Theorem C74_refuted : exists (d d' form form' : diagram float) n p p', reachable d /\ reachable d'
  /\ renamed (fun n => n) d d'
  /\ static_equilibrium d None 2 10%float false = Ok form
  /\ static_equilibrium d' None 2 10%float false = Ok form'
  /\ node_coordinates form n = Ok p /\ node_coordinates form' n = Ok p'
  /\ PrimFloat.ltb (vx p + 0x1p-8)%float (vx p') = true.
Proof. exact c74_refuted. Qed.
Print Assumptions C74_renamed_partial.
Print Assumptions C74_refuted.

(** ** Symmetric structures *)

(** C88: if a rotation or mirroring [Q] followed by the translation by [v] takes the structure
  to itself, it takes the form to itself, if there are no indirect deviation edges. *)
Theorem C88_symmetric_partial : forall pi Q v (d : diagram R) tmax eta verbose form, isometry Q ->
  reachable d -> ready d -> direct_only d -> symmetric pi (fun p => Q p +v v) Q d ->
  static_equilibrium d None tmax eta verbose = Ok form ->
  symmetric pi (fun p => Q p +v v) Q form.
Proof. exact c88_symmetric_partial. Qed.
(** Nodes on an axis or plane of symmetry stay on it, and so do their reactions. *)
Theorem C88_axis_partial : forall pi Q v (d : diagram R) tmax eta verbose form n, isometry Q ->
  reachable d -> ready d -> direct_only d -> symmetric pi (fun p => Q p +v v) Q d ->
  static_equilibrium d None tmax eta verbose = Ok form -> In n (nodes d) -> pi n = n ->
  exists p r, node_coordinates form n = Ok p /\ Q p +v v = p /\ reaction_force form n = Ok r /\ Q r = r.
Proof. exact c88_axis_partial. Qed.
(** Braced against each other, the columns are still symmetric.  In every pass the left column is
  placed before the middle one and the right column after it: after two passes the foot of the
  middle column is off the plane of symmetry, which its head is in. *)
Theorem C88_refuted : exists (d form : diagram float) pi P Q n p, reachable d /\ symmetric pi P Q d
  /\ static_equilibrium d None 2 10%float false = Ok form
  /\ pi n = n /\ node_coordinates form n = Ok p /\ PrimFloat.ltb (vx (P p) + 0x1p-4)%float (vx p) = true.
Proof. exact c88_refuted. Qed.
Print Assumptions C88_symmetric_partial.
Print Assumptions C88_axis_partial.
Print Assumptions C88_refuted.

(** ** Earlier and later on the trails *)

Section Generic.
  Context {T : Type} `{NumOps T}.
  Implicit Types (d : diagram T).

  (** C75: what comes later on the trails, or is not connected, has no influence.  If two
      topologies agree on a set of nodes that is closed under predecessors and the deviation
      edges of these, form finding puts the nodes of the set in the same places, with the
      same forces in the trail edges that lead to them, whatever the rest. *)
  Theorem C75_upstream : forall d d' (S : Z -> Prop) tmax eta verbose tmax' eta' verbose' form form',
    reachable d -> ready d -> reachable d' -> ready d' -> upstream d S -> same_upstream S d d' ->
    static_equilibrium d None tmax eta verbose = Ok form ->
    static_equilibrium d' None tmax' eta' verbose' = Ok form' ->
    (forall n, In n (nodes d) -> S n -> node_coordinates form' n = node_coordinates form n)
    /\ (forall n m e, follows d n m -> S m -> edge_between d n m e -> edge_force form' e = edge_force form e).
  Proof. exact c75_upstream. Qed.
  (** On a topology without indirect deviation edges, changing loads, deviation forces and
      trail lengths on sequence [k] or later does not move the nodes up to sequence [k]. *)
  Theorem C75_later : forall d k o tmax eta verbose tmax' eta' verbose' form form',
    reachable d -> ready d -> direct_only d -> late d k o ->
    static_equilibrium d None tmax eta verbose = Ok form ->
    static_equilibrium (fst (call o d)) None tmax' eta' verbose' = Ok form' ->
    forall n j, node_sequence d n = Ok j -> j <= k -> node_coordinates form' n = node_coordinates form n.
  Proof. exact c75_later. Qed.

  (** ** Passes and thresholds *)

  (** C76: a larger limit on the number of passes leaves a form that was found as it is,
      unless the last pass moved it by exactly the threshold. *)
  Theorem C76_more_passes_partial : forall d kmax tmax tmax' eta verbose verbose' form, 2 <= tmax <= tmax' ->
    static_equilibrium d kmax tmax eta verbose = Ok form ->
    static_equilibrium d kmax tmax' eta verbose' = Ok form
    \/ exists ts x, trails_sequences d = Ok ts /\ moves d ts kmax (Z.to_nat tmax - 1) x
         /\ nltb x eta = false /\ nltb eta x = false.
  Proof. exact c76_more_passes_partial. Qed.
End Generic.

(** C75, for two different structures: where the structures correspond, up to names of nodes
    and orders and directions of edges, so do the positions, the trail forces and the
    reactions of their forms. *)
Theorem C75_matched : forall (d d' : diagram R) (M : Z -> Z -> Prop) tmax eta verbose tmax' eta' verbose' form form',
    reachable d -> ready d -> reachable d' -> ready d' -> matched M d d' ->
    static_equilibrium d None tmax eta verbose = Ok form ->
    static_equilibrium d' None tmax' eta' verbose' = Ok form' ->
    (forall n n', M n n' -> node_coordinates form' n' = node_coordinates form n)
    /\ (forall n m n' m' e e', M m m' -> follows d n m -> follows d' n' m' -> edge_between d n m e -> edge_between d' n' m' e' ->
          edge_force form' e' = edge_force form e)
    /\ (forall n n', M n n' -> is_node_support d n = Ok true -> is_node_support d' n' = Ok true ->
          direct_at d n -> direct_at d' n' -> same_loading M d d' n n' -> reaction_force form' n' = reaction_force form n).
Proof. exact c75_matched. Qed.
(** C76: a form that is found with a threshold is found with every larger one. *)
Theorem C76_looser : forall (d : diagram R) kmax tmax eta eta' verbose form, reachable d -> (eta <= eta')%R ->
  static_equilibrium d kmax tmax eta verbose = Ok form ->
  exists form', static_equilibrium d kmax tmax eta' verbose = Ok form'.
Proof. exact c76_looser. Qed.
Theorem C76_refuted : exists (d form : diagram float) eta, reachable d
  /\ static_equilibrium d None 3 eta false = Ok form
  /\ static_equilibrium d None 4 eta false = Err (ValueError "Over iters")
  /\ static_equilibrium d None 100 eta false = Err (ValueError "Over iters").
Proof. exact c76_refuted. Qed.
Print Assumptions C75_upstream.
Print Assumptions C75_later.
Print Assumptions C76_more_passes_partial.
Print Assumptions C75_matched.
Print Assumptions C76_looser.
Print Assumptions C76_refuted.

(** ** The hypotheses can be met *)

(** The funicular of three bars, and the same with other names, in another order and with the
    edges turned round *)
Example C74_nonvacuous : exists (d d' form form' : diagram R) pi, reachable d /\ ready d /\ reachable d' /\ ready d' /\ direct_only d
  /\ renamed pi d d' /\ nodes d = [0; 1; 2; 3] /\ pi 0 = 13
  /\ static_equilibrium d None 100 (/ 1000000)%R false = Ok form /\ static_equilibrium d' None 100 (/ 1000000)%R false = Ok form'.
Proof.
  destruct funicular_forms as (f&E). destruct rother_forms as (f'&E'). exists funicular, rother, f, f', swap.
  split; [exact funicular_reachable|]. split; [exact funicular_ready|]. split; [exact rother_reachable|]. split; [exact rother_ready|].
  split; [exact (proj1 funicular_direct)|]. split; [exact rother_renamed|]. split; [lazy; reflexivity|]. split; [reflexivity|].
  split; assumption.
Qed.

(** A chain of bars with a load added at the second node *)
Example C75_nonvacuous : exists (d form form' : diagram R) o, reachable d /\ ready d /\ direct_only d /\ late d 1 o
  /\ upstream d (up_to d 1) /\ same_upstream (up_to d 1) d (fst (call o d))
  /\ up_to d 1 1 /\ node_load (fst (call o d)) 1 <> node_load d 1
  /\ static_equilibrium d None 100 (/ 1000000)%R false = Ok form
  /\ static_equilibrium (fst (call o d)) None 100 (/ 1000000)%R false = Ok form'.
Proof.
  destruct rchain_forms as (f&E). destruct rloaded_forms as (f'&E'). destruct rloaded_same as (U&S&I&N).
  exists rchain, f, f', later_load.
  split; [exact rchain_reachable|]. split; [exact rchain_ready|]. split; [exact rchain_direct|]. split; [exact later_load_late|].
  split; [exact U|]. split; [exact S|]. split; [exact I|]. split; [exact N|]. split; [exact E|exact E'].
Qed.

(** The funicular of three bars, alone and beside a strut *)
Example C75_matched_nonvacuous : exists (d d' form form' : diagram R) M, reachable d /\ ready d /\ reachable d' /\ ready d'
  /\ matched M d d' /\ M 0 0 /\ nodes d' <> nodes d
  /\ static_equilibrium d None 100 (/ 1000000)%R false = Ok form /\ static_equilibrium d' None 100 (/ 1000000)%R false = Ok form'.
Proof.
  destruct funicular_forms as (f&E). destruct rboth_forms as (f'&E'). exists funicular, rboth, f, f', itself.
  split; [exact funicular_reachable|]. split; [exact funicular_ready|]. split; [exact rboth_reachable|]. split; [exact rboth_ready|].
  split; [exact rboth_matched|]. split; [split; [reflexivity|left; reflexivity]|]. split; [lazy; discriminate|].
  split; assumption.
Qed.

(** Columns with an indirect deviation edge *)
Example C76_nonvacuous : exists (d form : diagram R) eta, reachable d /\ indirect_at d 1 <> [] /\ (0 < eta)%R
  /\ static_equilibrium d None 100 eta false = Ok form.
Proof.
  destruct rcolumns_forms as (eta&f&P&E). exists rcolumns, f, eta. split; [exact rcolumns_reachable|].
  split; [rewrite rcolumns_indirect; discriminate|]. split; [exact P|exact E].
Qed.

(** Three columns tied to each other, mirrored about the plane through the middle one *)
Example C88_nonvacuous : exists pi Q v (d form : diagram R), isometry Q /\ reachable d /\ ready d /\ direct_only d
  /\ symmetric pi (fun p => Q p +v v) Q d /\ static_equilibrium d None 100 (/ 1000000)%R false = Ok form
  /\ nodes d = [0; 1; 2; 3; 4; 5] /\ pi 0 = 4 /\ pi 3 = 3.
Proof.
  destruct rtriple_form as (f&E&_). exists across, turned, shifted, rtriple, f.
  split; [exact turned_isometry|]. split; [exact rtriple_reachable|]. split; [exact rtriple_ready|].
  split; [exact rtriple_direct|]. split; [exact rtriple_symmetric|]. split; [exact E|].
  split; [lazy; reflexivity|]. split; reflexivity.
Qed.
