(** * Properties of the Grasshopper components and of the counters (C77 - C85)

    Generated by tools/gen_props.py from the lemmas of ComponentThms.v, SettingThms.v,
    CountThms.v, PartThms.v, SketchThms.v, GoalThms.v and WitnessComponents.v.  The vocabulary is in
    SpecComponents.v, SpecArtists.v, SpecDiagram.v, SpecTopology.v, SpecConstraints.v,
    SpecGoals.v and SpecOptimizer.v. *)

From Coq Require Import String List ZArith Bool Permutation Floats Reals Lra.
From Verif Require Import Py PyFacts Num Diagram DiagramFacts Topology Equilibrium Constraints Optimizer RVec SpecStatics SpecConstraints SpecGoals SpecOptimizer History Fixtures
  SpecDiagram SpecTopology SpecEquilibrium ReadyThms Artists SpecArtists Components SpecComponents ComponentThms
  SettingThms CountThms PartThms SketchThms GoalThms Witness WitnessEq WitnessCon WitnessDraw WitnessComponents.
Import ListNotations.
Open Scope Z_scope.

Section Generic.
  Context {T : Type} `{NumOps T}.
  Implicit Types (d : diagram T).

  (** ** Assembly *)

  @thm c77_assembly
  @thm c77_ready
  @thm c77_rejects
  @thm c77_trail_edge
  @thm c77_deviation_edge
  @thm c77_load
  @thm c77_support

  (** ** Moving and shifting *)

  @thm c78_move_partial
  @thm c78_shift

  (** ** Searching *)

  @thm c79_node
  @thm c79_edge_partial

  (** ** Defaults *)

  @thm c80_form_finding_partial
  @thm c80_weight_partial
  @thm c80_constrained_partial

  (** ** Counters *)

  @thm c81_counts
  @thm c81_deviations
  @thm c81_ready
  @thm c81_exists_partial

  (** ** Results *)

  @thm c82_edges
  @thm c82_reactions

  (** ** Parts *)

  @thm c83_topology
  @thm c83_assembled
  @thm c83_form
End Generic.
@assume

(** ** Drawings *)

@thm c84_form_partial
@thm c84_topology_partial
@assume

(** ** Constraints and parameters *)

Open Scope R_scope.
@thm c85_constraints
@thm c85_direction
@thm c85_none
@thm c85_parameters
Close Scope R_scope.
@assume

(** ** Counterexamples *)

@thm c78_refuted
@thm c79_refuted
@thm c80_refuted
@thm c81_refuted
@thm c83_refuted
@thm c84_refuted
@assume

(** ** The hypotheses can be met *)

(** The arch of three bars is assembled and ready for form finding. *)
Example C77_nonvacuous : (forall p q, In (p, q) (connected arch_loads) -> meets arch_lines p)
  /\ (forall p, In p (connected arch_supports) -> meets arch_lines p)
  /\ (exists d, reachable d /\ drawn_from arch_lines (connected arch_loads) (connected arch_supports) d
        /\ chains d arch_chains /\ covers d arch_chains)
  /\ exists d', gh_topology id_order arch_trails arch_deviations arch_loads arch_supports None = Ok d' /\ ready d'.
Proof.
  assert (NE : arch_trails <> []) by discriminate.
  assert (X := C77_ready id_order arch_trails arch_deviations arch_loads arch_supports None id_order_same (or_introl NE)).
  specialize (X arch_loads_meet arch_supports_meet). destruct X as (d&R&D&K).
  assert (A := arch_drawn d R D).
  split; [exact arch_loads_meet|]. split; [exact arch_supports_meet|]. split; [exists d; split; [exact R|]; split; [exact D|exact A]|].
  apply (K arch_chains); [apply A|discriminate|right; apply A].
Qed.

(** A support beside the arch is rejected. *)
Example C77_rejects_nonvacuous : ~ meets arch_lines (fv 9 9 9)
  /\ gh_topology id_order arch_trails arch_deviations arch_loads (Some (fv 9 9 9) :: arch_supports) None
     = Err (ValueError "A node doesn't exist").
Proof.
  assert (M : ~ meets arch_lines (fv 9 9 9)).
  { intros (q&I&E). vm_compute in I. repeat destruct I as [<-|I]; try (vm_compute in E; discriminate E). contradiction. }
  split; [exact M|]. apply (C77_rejects _ _ _ _ _ _ (fv 9 9 9)); [vm_compute; tauto|exact M].
Qed.

(** The two origins of the tower are put at one point, or their trails shifted to one sequence. *)
Example C78_nonvacuous : reachable tower_built /\ ready tower_built /\ NoDup [2; 5] /\ incl [2; 5] (nodes tower_built)
  /\ (forall k, In k [2; 5] -> is_node_origin tower_built k = Ok true /\ exists tr, In (k, tr) (trails tower_built))
  /\ repeated [3] 1 3.
Proof.
  split; [apply tower_built_reachable|]. split.
  { destruct (c61_built_ready tower id_order tower_chains tower_reachable id_order_same (proj1 tower_chains_ok) (proj2 tower_chains_ok) ltac:(discriminate)) as (d'&E&R).
    assert (X : build_trails id_order false tower = (tower_built, Ok tt)) by (vm_compute; reflexivity). congruence. }
  split; [apply nodup_b_ok; reflexivity|]. split; [intros k I; vm_compute in I |- *; tauto|]. split.
  - intros k [<-|[<-|[]]]; (split; [vm_compute; reflexivity|]); eexists; vm_compute; [left|right; left]; reflexivity.
  - right. split; [apply le_n|]. exists []. reflexivity.
Qed.

(** The first edge of the arch is found by its ends. *)
Example C79_nonvacuous : exists d, reachable d /\ drawn_from arch_lines (connected arch_loads) (connected arch_supports) d
  /\ gh_search_edge d (fv 1 0 0) (fv 0 0 0) = Ok (0, 1).
Proof.
  destruct (C77_assembly id_order arch_trails arch_deviations arch_loads arch_supports None arch_loads_meet arch_supports_meet) as (d&R&D&_).
  exists d. split; [exact R|]. split; [exact D|].
  assert (A : node_coordinates d 0 = Ok (fv 1 0 0) /\ node_coordinates d 1 = Ok (fv 0 0 0)).
  { assert (I : In 0 (nodes d) /\ In 1 (nodes d)) by (rewrite (df_nodes _ _ _ _ D); vm_compute; tauto).
    destruct (df_each _ _ _ _ D 0 (proj1 I)) as (p&q&t&E&C&_), (df_each _ _ _ _ D 1 (proj2 I)) as (p'&q'&t'&E'&C'&_).
    unfold node_coordinates. rewrite E, E'. vm_compute in C, C'. split; [exact (eq_sym C)|exact (eq_sym C')]. }
  apply (C79_edge_partial id_order arch_lines (connected arch_loads) (connected arch_supports) d d _ _ 0 1 (fv 1 0 0) (fv 0 0 0));
    [exact R|exact D|exact id_order_same|now left| |apply A|apply A|reflexivity|reflexivity].
  destruct (df_edges _ _ _ _ D) as (Ee&_). rewrite Ee. vm_compute. tauto.
Qed.

(** Settings that are given and settings that are not *)
Example C80_nonvacuous : setting (Some 20) 100 20 /\ setting (None : option Z) 100 100 /\ 20 <> 0
  /\ setting (Some 2%float) 1%float 2%float /\ neqb 2%float n0 = false.
Proof.
  split; [left; reflexivity|]. split; [right; split; reflexivity|]. split; [discriminate|]. split; [left; reflexivity|vm_compute; reflexivity].
Qed.

(** The tower: two trails and supports, four trail edges, two direct and three indirect deviation edges; and the tree
    with two auxiliary trails *)
Example C81_nonvacuous : reachable tower_built /\ sequenced tower_built
  /\ number_of_trails tower_built = 2 /\ number_of_support_nodes tower_built = 2 /\ number_of_trail_edges tower_built = 4
  /\ number_of_direct_deviation_edges tower_built = Ok 2 /\ number_of_indirect_deviation_edges tower_built = Ok 3
  /\ number_of_loaded_nodes tower_built = Ok 2
  /\ number_of_auxiliary_trails (made (tree_2d zf ++ [build_aux])) = 2.
Proof.
  split; [apply tower_built_reachable|]. split.
  { intros n I. vm_compute in I. repeat (destruct I as [<-|I]; [eexists; vm_compute; reflexivity|]). contradiction. }
  repeat split; vm_compute; reflexivity.
Qed.

(** All edges of the tower, and two of them *)
Example C82_nonvacuous : chosen None (edges tower) (edges tower) /\ chosen (Some [(1, 4); (0, 1)]) (edges tower) [(1, 4); (0, 1)]
  /\ gh_results_edges tower (Some [(1, 4); (0, 1)]) = Ok ([0; -1]%float, [-1; 0]%float).
Proof.
  split; [right; auto|]. split; [left; split; [reflexivity|discriminate]|]. vm_compute. reflexivity.
Qed.

(** The first trail edge, the deviation edge, a load and a support of the arch are given once, and the arch is assembled;
    so they are found in it with what they were given. *)
Example C77_elements_nonvacuous : exists d, gh_topology id_order arch_trails arch_deviations arch_loads arch_supports None = Ok d
  /\ In (gh_trail_edge (Some (fv 1 0 0, fv 0 0 0)) (Some (-1)%float) None) arch_trails
  /\ In (gh_deviation_edge (Some (fv 2 0 0, fv 1 0 0)) (Some (-1)%float)) arch_deviations
  /\ In (gh_load (Some (fv 1 0 0)) (Some (fv 0 (-1) 0))) arch_loads /\ In (gh_support (Some (fv 0 0 0))) arch_supports
  /\ (exists e, gh_search_edge d (fv 1 0 0) (fv 0 0 0) = Ok e /\ In e (trail_edges d) /\ edge_length_2 d e = Ok (-1)%float /\ edge_plane d e = Ok None)
  /\ (exists e, gh_search_edge d (fv 2 0 0) (fv 1 0 0) = Ok e /\ In e (deviation_edges d) /\ edge_force d e = Ok (-1)%float)
  /\ (exists n, gh_search_node d (fv 1 0 0) = Ok n /\ node_load d n = Ok (fv 0 (-1) 0))
  /\ exists n, gh_search_node d (fv 0 0 0) = Ok n /\ is_node_support d n = Ok true.
Proof.
  assert (X := C77_assembly id_order arch_trails arch_deviations arch_loads arch_supports None).
  specialize (X arch_loads_meet arch_supports_meet). destruct X as (d0&R&D&B&_).
  assert (NE : arch_trails <> [] /\ arch_supports <> []) by (split; discriminate).
  assert (Na : (None : option bool) <> Some true) by discriminate.
  destruct (B (or_introl NE)) as [_ B']. specialize (B' Na). assert (A := arch_drawn d0 R D).
  destruct C77_nonvacuous as (_&_&_&d&E&_). exists d. split; [exact E|].
  assert (Ebt : build_trails id_order false d0 = (d, Ok tt)).
  { rewrite E in B'. unfold outcome in B'. destruct (build_trails id_order false d0) as [d1 [[]|e]]; [injection B' as ->; reflexivity|discriminate B']. }
  assert (I1 : In (gh_trail_edge (Some (fv 1 0 0, fv 0 0 0)) (Some (-1)%float) None) arch_trails) by (left; reflexivity).
  assert (I2 : In (gh_deviation_edge (Some (fv 2 0 0, fv 1 0 0)) (Some (-1)%float)) arch_deviations) by (left; reflexivity).
  assert (I3 : In (gh_load (Some (fv 1 0 0)) (Some (fv 0 (-1) 0))) arch_loads) by (left; reflexivity).
  assert (I4 : In (gh_support (Some (fv 0 0 0))) arch_supports) by (left; reflexivity).
  split; [exact I1|]. split; [exact I2|]. split; [exact I3|]. split; [exact I4|].
  split; [|split; [|split]].
  - apply (C77_trail_edge id_order _ _ _ _ _ d _ _ _ _ id_order_same E Na I1).
    intros a b el I Ea Eb. repeat destruct I as [I|I]; try contradiction; try discriminate I; injection I as <- <- <-;
      try reflexivity; vm_compute in Ea; discriminate Ea.
  - apply (C77_deviation_edge id_order _ _ _ _ _ d _ _ _ id_order_same E Na I2).
    intros a b el I Ea Eb. repeat destruct I as [I|I]; try contradiction; try discriminate I; injection I as <- <- <-;
      try reflexivity; vm_compute in Ea, Eb; first [discriminate Ea|discriminate Eb].
  - apply (C77_load id_order _ _ _ _ _ d _ _ id_order_same E Na I3).
    intros p q I Ep. repeat destruct I as [I|I]; try contradiction; try discriminate I; injection I as <- <-; reflexivity.
  - apply (C77_support id_order _ _ _ _ _ d _ id_order_same E Na I4). right. exists d0, arch_chains.
    split; [exact R|]. split; [exact D|]. split; [exact Ebt|]. split; [apply A|]. split; [apply A|discriminate].
Qed.

(** The tower is ready and has parts; the arch is taken apart into its two chains. *)
Example C83_nonvacuous : reachable tower_built /\ ready tower_built
  /\ gh_disassemble_topology tower_built = Ok ([0; 1; 2; 3; 4; 5], [2; 5], [0; 3], edges tower_built, trail_edges tower_built, deviation_edges tower_built,
       [[2; 5]; [1; 4]; [0; 3]], [[2; 1; 0]; [5; 4; 3]], []).
Proof.
  destruct C78_nonvacuous as (R&Rd&_). split; [exact R|]. split; [exact Rd|]. vm_compute. reflexivity.
Qed.

(** The form of the chain of bars, drawn at two nodes, one of them its support, with a scale that is not given. *)
Example C84_nonvacuous : exists form : diagram R, produced form /\ chosen (Some [3; 2]) (nodes form) [3; 2] /\ chosen (Some []) (edges form) (edges form)
  /\ incl [3; 2] (nodes form) /\ (exists n, In n [3; 2] /\ In n (support_nodes form)) /\ held_by_edges form [3; 2]
  /\ setting (Some (/ 10)%R) (/ 1000)%R (/ 10)%R /\ setting None 1%R 1%R /\ (/ 10 <> 0)%R /\ (0 < 1)%R.
Proof.
  destruct rchain_support as (form&E&Hh&_). exists form.
  assert (P : produced form) by (right; do 5 eexists; split; [apply rchain_reachable|exact E]).
  destruct (EqThms.c37_frame _ _ _ _ _ _ rchain_reachable E) as (Nf&_&_&Sf&_).
  assert (N : nodes rchain = [0; 1; 2; 3]) by (lazy; reflexivity).
  assert (I : incl [3; 2] (nodes form)) by (rewrite Nf, N; intros n [<-|[<-|[]]]; cbn; auto).
  split; [exact P|]. split; [left; split; [reflexivity|discriminate]|]. split; [right; auto|]. split; [exact I|].
  split; [exists 3; split; [now left|]|].
  { apply ReadyThms.In_support_is; [apply FormFacts.produced_wf; exact P|]. rewrite Sf. lazy. reflexivity. }
  split; [intros n J; apply Hh, I, J|]. clear. split; [left; reflexivity|]. split; [right; split; reflexivity|]. split; lra.
Qed.

(** A state with two nodes, at a distance of 5: a length of 3 asked for with weight 2 costs 8. *)
Example C85_nonvacuous : setting (Some 2%R) 1%R 2%R /\ (2 <> 0)%R /\ directed (0, 1) two_nodes
  /\ exists c, gh_length_constraint (Some (0, 1)) (Some 3%R) (Some 2%R) = Some c /\ penalty two_nodes c = Ok 8%R.
Proof.
  assert (S2 : setting (Some 2%R) 1%R 2%R) by (left; reflexivity). assert (N2 : (2 <> 0)%R) by lra.
  assert (N0 : node_at two_nodes 0 (V3 0 0 0)%R) by reflexivity. assert (N1 : node_at two_nodes 1 (V3 3 4 0)%R) by reflexivity.
  split; [exact S2|]. split; [exact N2|]. split.
  - intros p q Np Nq. unfold node_at in *. cbn [fst snd] in *. rewrite N0 in Np. rewrite N1 in Nq. injection Np as <-. injection Nq as <-.
    intros E. apply (f_equal vx) in E. cbn in E. lra.
  - destruct (C85_constraints (Some 2%R) 2%R S2 N2) as (_&_&_&_&_&_&L). destruct (L 0 1 3%R) as (c&E&P). exists c. split; [exact E|].
    apply (P two_nodes 8%R I). exists 2%R. split; [|lra]. exists (V3 0 0 0)%R, (V3 3 4 0)%R. split; [exact N0|]. split; [exact N1|].
    assert (D : dist (V3 0 0 0)%R (V3 3 4 0)%R = 5%R).
    { unfold dist, norm, dot. cbn. match goal with |- R_sqrt.sqrt ?x = _ => replace x with (5 * 5)%R by ring end. apply R_sqrt.sqrt_square. lra. }
    rewrite D. rewrite Rabs_right; lra.
Qed.
