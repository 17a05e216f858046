(** * Properties of drawings (C57, C70 - C73)

    Generated by tools/gen_props.py from the lemmas of ArtistThms.v and
    WitnessDraw.v.  The vocabulary is in SpecArtists.v. *)

From Coq Require Import String List ZArith Bool Permutation Floats Reals Lra.
From Verif Require Import Py PyFacts Num Diagram DiagramFacts Topology Equilibrium History Fixtures SpecDiagram SpecTopology SpecEquilibrium
  RVec SpecStatics Artists SpecArtists ArtistThms Witness WitnessEq WitnessDraw.
Import ListNotations.
Open Scope Z_scope.

(** ** Edge widths *)

@thm c57_range
@thm c57_order

(** ** Arrows *)

@thm c70_loads
@thm c70_reactions
@thm c70_outside

(** ** Colors *)

@thm c71_palette
@thm c71_plotter_form
@thm c71_viewer_form
@thm c71_state
@assume

Section Generic.
  Context {T : Type} `{NumOps T}.
  Implicit Types (d : diagram T) (w : dict ekey T).

  @thm c57_same
  @thm c57_default
  @thm c57_ignored
  @thm c57_no_edges
  @thm c57_empty
  @thm c71_one_look
  @thm c71_topology
  @thm c71_nodes
  @thm c71_lines
  @thm c71_crosses

  (** ** Selections in Grasshopper *)

  @thm c72_drawn
  @thm c72_kinds
  @thm c72_supports_partial
  @thm c72_trails
End Generic.
@assume

(** ** Visibility *)

@thm c73_partial
@thm c73_refuted
@assume

(** ** Counterexamples *)

@thm c57_plotter_refuted
@thm c70_refuted
@thm c71_refuted
@thm c72_refuted
@assume

(** ** The hypotheses can be met *)

(** Three edges of the chain of bars, two of them in equilibrium with a load *)
Example C57_nonvacuous : exists form : diagram R, produced form /\ edges form <> [] /\ forces_known form (edges form)
  /\ force form (0, 1) <> 0%R.
Proof.
  destruct rchain_forms as (form&E). exists form.
  assert (P : produced form) by (right; do 5 eexists; split; [apply rchain_reachable|exact E]).
  split; auto. split; [|split; [apply forces_known_all; auto|apply (rchain_forces form E)]].
  destruct (EqThms.c37_frame _ _ _ _ _ _ rchain_reachable E) as (_&Ef&_). rewrite Ef. lazy. discriminate.
Qed.

(** The support of the chain of bars *)
Example C70_nonvacuous : exists form, static_equilibrium rchain None 100 (/ 1000000)%R false = Ok form
  /\ held_by_edges form (nodes form) /\ In 3 (nodes form)
  /\ connected_edges form 3 = Ok [(2, 3)] /\ incident form 3 = [(2, 3)] /\ load form 3 = v0 /\ unbalanced form 3 = v0.
Proof. exact rchain_support. Qed.

(** The tower with its trails has trail edges, direct and indirect deviation edges; the tree has auxiliary trails. *)
Example C71_nonvacuous : drawable tower_built /\ drawable tower
  /\ viewer_draw_topology tower_built (edges tower_built)
     = Ok [(purple, [(0, 1); (1, 2); (3, 4); (4, 5)]); (lime, [(1, 4); (2, 5)]); (coral, [(1, 5); (1, 3); (2, 4)])]
  /\ viewer_draw_topology (made (tree_2d zf ++ [build_aux])) [(1, 5); (3, 4)] = Ok [(orange, [(1, 5)]); (purple, [(3, 4)])].
Proof.
  split; [right|split; [left|split]]; [|vm_compute; reflexivity..].
  intros n I. vm_compute in I. repeat (destruct I as [<-|I]; [eexists; vm_compute; reflexivity|]). contradiction.
Qed.

(** A selection with trail and deviation edges, and one with a support *)
Example C72_nonvacuous : (forall e, In e [(0, 1); (1, 4)] -> In e (edges tower))
  /\ filter (fun e => memb e (trail_edges tower)) [(0, 1); (1, 4)] = [(0, 1)]
  /\ (forall n, In n [1; 3] -> In n (nodes tower)) /\ exists n, In n [1; 3] /\ In n (support_nodes tower).
Proof.
  split; [vm_compute; tauto|]. split; [vm_compute; reflexivity|]. split; [vm_compute; tauto|]. exists 3. vm_compute. tauto.
Qed.
