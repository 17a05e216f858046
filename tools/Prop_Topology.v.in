(** * Properties of trails, sequences and edge queries (C11 - C24, C59, C67)

    Generated by tools/gen_props.py from the lemmas of TopologyThms.v,
    SequenceThms.v, QueryThms.v and Witness.v.  The vocabulary is in SpecTopology.v. *)

From Coq Require Import String List ZArith Bool Permutation Floats Reals.
From Verif Require Import Py Num Diagram Topology History Fixtures SpecDiagram SpecTopology
  SpecEquilibrium TopologyThms SequenceThms QueryThms Witness.
Import ListNotations.
Open Scope Z_scope.

Section Generic.
  Context {T : Type} `{NumOps T}.
  Implicit Types (d : diagram T).

  @thm c11_build_trails_total
  @thm c11_search_bound
  @thm c12_trail_structure
  @thm c13_no_incomplete_trails
  @thm c13_auxiliary_failure_keeps_trails
  @thm c14_chains_recovered
  @thm c15_one_trail_partial
  @thm c16_rebuild_partial
  @thm c17_auxiliary_trails
  @thm c18_register_is_cleared
  @thm c19_build_frame
  @thm c19_build_auxiliary_frame
  @thm c20_shift_trail
  @thm c20_shift_rejects
  @thm c21_sequences
  @thm c22_direct_indirect
  @thm c23_connected_edges
  @thm c24_trails_sequences
  @thm c24_after_build
  @thm c59_supports_kept_partial
  @thm c67_nodes
  @thm c67_loaded
  @thm c67_supported
  @thm c67_edges
  @thm c67_auxiliary
End Generic.
@assume

(** ** Over the real numbers *)

@thm c67_loaded_length
@assume

(** ** What does not hold *)

@thm c12_self_loop_refuted
@thm c12_antiparallel_refuted
@thm c15_refuted
@thm c15_twice_refuted
@thm c16_refuted
@thm c18_refuted
@thm c59_refuted
@assume

(** ** The hypotheses can be met *)

(** C11 - C16, C19, C24, C59: the braced tower of the test suite, two trails *)
Example C14_nonvacuous : reachable tower /\ same_set_order id_order /\ same_set_order (@rev Z)
  /\ simple_graph tower /\ chains tower tower_chains /\ covers tower tower_chains /\ tower_chains <> []
  /\ build_trails id_order false tower = (tower_built, Ok tt)
  /\ trails tower_built = [(2, [2; 1; 0]); (5, [5; 4; 3])].
Proof.
  split; [apply tower_reachable|]. split; [apply id_order_same|]. split; [apply rev_order_same|].
  split; [apply simple_b_ok; vm_compute; reflexivity|].
  split; [apply tower_chains_ok|]. split; [apply tower_chains_ok|]. split; [discriminate|].
  split; vm_compute; reflexivity.
Qed.

(** C11: a trail-edge cycle next to a supported chain does not loop; C13: the
    three ways to fail *)
Definition cycle : list (op float) :=
  [node zf 0 0 0 0; node zf 1 1 0 0; node zf 2 2 0 0; node zf 3 3 0 0;
   trail_e zf 0 1 1; trail_e zf 1 2 1; trail_e zf 2 0 1; trail_e zf 0 3 1; sup 3].
Example C11_nonvacuous :
  trails (made (cycle ++ [build])) = [(1, [1; 2; 0; 3])]
  /\ snd (build_trails id_order false (made (support_missing zf)))
     = Err (AssertionError "Nodes haven't been assigned to a trail.")
  /\ snd (build_trails id_order false (made (no_trails zf))) = Err (AssertionError "No trail edges defined!")
  /\ snd (build_trails id_order false (made (unsupported zf))) = Err (AssertionError "No supports assigned!").
Proof. comps. Qed.

(** C12 also covers the branched diagrams of the counterexamples to C15. *)
Example C12_nonvacuous : reachable (made star) /\ simple_graph (made star)
  /\ build_trails id_order false (made star) = (made (star ++ [build]), Ok tt)
  /\ trails (made (star ++ [build])) = [(3, [3; 1; 4]); (4, [4; 1; 2])].
Proof.
  split; [made_reachable|]. split; [apply simple_b_ok; vm_compute; reflexivity|]. comps.
Qed.

(** C13, auxiliary: a failing call *)
Example C13_nonvacuous : exists d' e, build_trails id_order true (empty_diagram (T := float)) = (d', Err e).
Proof. eexists. eexists. vm_compute. reflexivity. Qed.

(** C17, C18: the tree of the test suite *)
Example C17_nonvacuous : reachable tree /\ chains tree tree_chains /\ nodes tree <> []
  /\ build_trails id_order true tree = (made (tree_2d zf ++ [build_aux]), Ok tt)
  /\ trails (made (tree_2d zf ++ [build_aux])) = [(3, [3; 4]); (1, [1; 5]); (2, [2; 6])]
  /\ auxiliary_trails (made (tree_2d zf ++ [build_aux])) = [(1, (1, 5)); (2, (2, 6))].
Proof.
  split; [apply tree_reachable|]. split; [apply tree_chains_ok|]. split; [apply tree_chains_ok|].
  split; [vm_compute; reflexivity|]. split; vm_compute; reflexivity.
Qed.

(** C20: shifting a trail of the built tower *)
Example C20_nonvacuous : reachable tower_built /\ is_node_origin tower_built 2 = Ok true
  /\ In (2, [2; 1; 0]) (trails tower_built) /\ NoDup [2; 1; 0]
  /\ trail_sequences (fst (shift_trail 2 4 tower_built)) 2 = Ok [(4, 2); (5, 1); (6, 0)]
  /\ is_node_origin tower_built 1 = Ok false.
Proof.
  split; [apply tower_built_reachable|]. split; [comp|]. split; [comp|].
  split; [apply nodup_b_ok; reflexivity|]. comps.
Qed.

(** C21 - C24: the built tower has sequences, direct and indirect deviation edges *)
Lemma tower_built_sequenced : forall n, In n (nodes tower_built) -> exists k, node_sequence tower_built n = Ok k /\ 0 <= k.
Proof.
  intros n I. vm_compute in I. repeat destruct I as [<-|I]; try contradiction;
    (eexists; split; [vm_compute; reflexivity|vm_compute; discriminate]).
Qed.
Example C21_nonvacuous : reachable tower_built /\ nodes tower_built <> []
  /\ (forall n, In n (nodes tower_built) -> exists k, node_sequence tower_built n = Ok k /\ 0 <= k)
  /\ sequences tower_built = Ok [(0, [2; 5]); (1, [1; 4]); (2, [0; 3])]
  /\ simple_graph tower_built.
Proof.
  split; [apply tower_built_reachable|]. split; [vm_compute; discriminate|].
  split; [apply tower_built_sequenced|]. split; [vm_compute; reflexivity|].
  apply simple_b_ok. vm_compute. reflexivity.
Qed.
Example C22_nonvacuous : sequenced tower_built
  /\ direct_deviation_edges tower_built = Ok [(1, 4); (2, 5)]
  /\ indirect_deviation_edges tower_built = Ok [(1, 5); (1, 3); (2, 4)].
Proof.
  split; [intros n I; destruct (tower_built_sequenced n I) as (k&E&_); exists k; exact E|]. comps.
Qed.
Example C24_nonvacuous :
  (forall key tr n, In (key, tr) (trails tower_built) -> In n tr -> exists k, node_sequence tower_built n = Ok k)
  /\ trails_sequences tower_built = Ok [(2, [(0, 2); (1, 1); (2, 0)]); (5, [(0, 5); (1, 4); (2, 3)])].
Proof.
  split; [|vm_compute; reflexivity]. intros key tr n I J.
  destruct (tower_built_sequenced n) as (k&E&_); [|exists k; exact E].
  vm_compute in I. destruct I as [I|[I|[]]]; injection I as <- <-; vm_compute; vm_compute in J; tauto.
Qed.

(** C67: the tree with its auxiliary trails has supports, origins, loads and auxiliary edges. *)
Example C67_nonvacuous : reachable (made (tree_2d zf ++ [build_aux]))
  /\ support_nodes (made (tree_2d zf ++ [build_aux])) <> [] /\ origin_nodes (made (tree_2d zf ++ [build_aux])) <> []
  /\ (exists n l, loaded_nodes (made (tree_2d zf ++ [build_aux])) 0x1p-20%float = Ok (n :: l))
  /\ auxiliary_trail_edges (made (tree_2d zf ++ [build_aux])) = [(1, 5); (2, 6)].
Proof.
  split; [made_reachable|]. split; [vm_compute; discriminate|]. split; [vm_compute; discriminate|].
  split; [eexists; eexists; vm_compute; reflexivity|vm_compute; reflexivity].
Qed.
