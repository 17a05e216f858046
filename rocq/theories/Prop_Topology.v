(** * Properties of trails, sequences and edge queries (C11 - C24, C59, C67)

    Generated by tools/gen_props.py from the lemmas of TopologyThms.v,
    SequenceThms.v, QueryThms.v and Witness.v.  The vocabulary is in SpecTopology.v. *)

From Coq Require Import String List ZArith Bool Permutation Floats Reals.
From Verif Require Import Py Num Diagram Topology History Fixtures SpecDiagram SpecTopology
  SpecEquilibrium TopologyThms SequenceThms QueryThms Witness.
Import ListNotations.
Open Scope Z_scope.

Section Generic.
  Context {T : Type} `{NumOps T}.
  Implicit Types (d : diagram T).

  (** build_trails returns or raises AssertionError: in particular it terminates
      (the model's loop bound is never hit). *)
  Theorem C11_build_trails_total : forall d ord aux, reachable d -> same_set_order ord ->
    snd (build_trails ord aux d) = Ok tt
    \/ exists msg, snd (build_trails ord aux d) = Err (AssertionError msg).
  Proof. exact c11_build_trails_total. Qed.
  (** A trail search from a node needs no more steps than the diagram has nodes,
      plus one: the number of steps it is allowed does not matter beyond that. *)
  Theorem C11_search_bound : forall d s, reachable d -> In s (nodes d) ->
    exists tr vis o, (List.length tr <= S (List.length (nodes d)))%nat
      /\ forall fuel, (List.length (nodes d) < fuel)%nat -> walk fuel d [] [] s = Ok (tr, vis, o).
  Proof. exact c11_search_bound. Qed.
  (** Every stored trail is a simple chain of trail edges from an origin node with
      no trail edge leaving the trail, to a node that was a support when the call
      started (or that the call itself added as the end of an auxiliary trail). *)
  Theorem C12_trail_structure : forall d ord aux d', reachable d -> same_set_order ord -> simple_graph d ->
    build_trails ord aux d = (d', Ok tt) ->
    forall key tr, In (key, tr) (trails d') ->
      starts_with tr key
      /\ is_node_origin d' key = Ok true
      /\ (forall a b, consecutive tr a b -> trail_joined d' a b)
      /\ NoDup tr
      /\ (exists s, ends_in tr s /\ (In s (support_nodes d) \/ aux = true /\ ~ In s (nodes d)))
      /\ (forall m, trail_joined d' key m -> In m tr).
  Proof. exact c12_trail_structure. Qed.
  (** build_trails() succeeds only on complete topologies; each failure says which
      condition is violated; a failing call keeps the stored trails. *)
  Theorem C13_no_incomplete_trails : forall d ord, reachable d -> same_set_order ord ->
    let '(d', r) := build_trails ord false d in
    (r = Ok tt /\ trail_edges d <> [] /\ support_nodes d' <> []
       /\ forall n, In n (nodes d) ->
            (exists s, In s (support_nodes d) /\ trail_connected d s n)
            /\ exists k, node_sequence d' n = Ok k /\ 0 <= k)
    \/ (trails d' = trails d
        /\ ((r = Err (AssertionError "No trail edges defined!") /\ trail_edges d = [])
            \/ (r = Err (AssertionError "No supports assigned!") /\ support_nodes d' = [])
            \/ (r = Err (AssertionError "Nodes haven't been assigned to a trail.")
                /\ exists n, In n (nodes d) /\ forall k, node_sequence d' n = Ok k -> node_sequence d n = Ok k))).
  Proof. exact c13_no_incomplete_trails. Qed.
  (** The same for auxiliary trails: a failing call keeps the stored trails. *)
  Theorem C13_auxiliary_failure_keeps_trails : forall d ord d' e, reachable d -> same_set_order ord ->
    build_trails ord true d = (d', Err e) -> trails d' = trails d.
  Proof. exact c13_auxiliary_failure_keeps_trails. Qed.
  (** A topology whose trail edges form disjoint chains covering all nodes, each
      with exactly one support at its end: build_trails stores exactly the chains. *)
  Theorem C14_chains_recovered : forall d ord P, reachable d -> same_set_order ord ->
    chains d P -> covers d P -> P <> [] ->
    exists d', build_trails ord false d = (d', Ok tt)
      /\ Permutation (trails d') (map (fun p => (hd 0 p, p)) P)
      /\ (forall n, is_node_origin d' n = Ok true <-> In n (map (hd 0) P) \/ is_node_origin d n = Ok true)
      /\ (forall n, is_node_support d' n = Ok true <-> is_node_support d n = Ok true)
      /\ (forall p i n, In p P -> nth_error p i = Some n -> node_sequence d' n = Ok (Z.of_nat i))
      /\ same_but_types_and_sequences d d'.
  Proof. exact c14_chains_recovered. Qed.
  (** Under the hypotheses of C14 every node lies on exactly one stored trail. *)
  Theorem C15_one_trail_partial : forall d ord P d', reachable d -> same_set_order ord ->
    chains d P -> covers d P -> P <> [] -> build_trails ord false d = (d', Ok tt) ->
    forall n, In n (nodes d') -> exists key tr, In (key, tr) (trails d') /\ In n tr
      /\ forall key' tr', In (key', tr') (trails d') -> In n tr' -> key' = key /\ tr' = tr.
  Proof. exact c15_one_trail_partial. Qed.
  (** Under the hypotheses of C14 rebuilding changes nothing at all. *)
  Theorem C16_rebuild_partial : forall d ord ord' P d', reachable d -> same_set_order ord -> same_set_order ord' ->
    chains d P -> covers d P -> P <> [] -> build_trails ord false d = (d', Ok tt) ->
    build_trails ord' false d' = (d', Ok tt).
  Proof. exact c16_rebuild_partial. Qed.
  (** build_trails(True) adds one support and one trail edge per uncovered node. *)
  Theorem C17_auxiliary_trails : forall d ord P, reachable d -> same_set_order ord ->
    chains d P -> nodes d <> [] ->
    exists d' (ps : list ekey), build_trails ord true d = (d', Ok tt)
      (* one pair (n, new) per node that is not on a chain *)
      /\ Permutation (map fst ps) (filter (fun n => negb (memb n (concat P))) (nodes d))
      /\ nodes d' = nodes d ++ map snd ps
      /\ NoDup (nodes d')
      (* the new nodes *)
      /\ (forall n k, In (n, k) ps -> exists p, node_coordinates d n = Ok p
            /\ node_coordinates d' k
                 = Ok (add_vectors p (scale_vector (normalize_vector (d_aux_vector d)) (d_aux_length d)))
            /\ node_load d' k = Ok vzero /\ is_node_support d' k = Ok true)
      (* the old nodes *)
      /\ (forall n, In n (nodes d) -> node_coordinates d' n = node_coordinates d n
            /\ node_load d' n = node_load d n /\ reaction_force d' n = reaction_force d n)
      (* the edges *)
      /\ (forall e, In e (edges d') <-> In e (edges d) \/ In e ps)
      /\ (forall e, In e (edges d) -> edge_get d' e = edge_get d e)
      /\ (forall e, In e ps -> is_trail_edge d' e = Ok true
            /\ edge_length_2 d' e = Ok (d_aux_length d) /\ edge_plane d' e = Ok None)
      (* the trails *)
      /\ auxiliary_trails d' = map (fun nk => (fst nk, nk)) ps
      /\ (forall e, In e (auxiliary_trail_edges d') <-> In e ps)
      /\ Permutation (trails d') (map (fun p => (hd 0 p, p)) (P ++ map (fun nk => [fst nk; snd nk]) ps))
      /\ chains d' (P ++ map (fun nk => [fst nk; snd nk]) ps)
      /\ covers d' (P ++ map (fun nk => [fst nk; snd nk]) ps)
      /\ (forall p i n, In p (P ++ map (fun nk => [fst nk; snd nk]) ps) -> nth_error p i = Some n ->
            node_sequence d' n = Ok (Z.of_nat i)).
  Proof. exact c17_auxiliary_trails. Qed.
  (** What really happens to the register: on chains that cover all the nodes (in
      particular after a successful call) build_trails(True) keeps the diagram and
      the trails but forgets every auxiliary trail. *)
  Theorem C18_register_is_cleared : forall d ord ord' P d', reachable d -> same_set_order ord -> same_set_order ord' ->
    chains d P -> nodes d <> [] -> build_trails ord true d = (d', Ok tt) ->
    exists d'', build_trails ord' true d' = (d'', Ok tt)
      /\ nodes d'' = nodes d' /\ (forall e, In e (edges d'') <-> In e (edges d'))
      /\ Permutation (trails d'') (trails d')
      /\ auxiliary_trails d'' = [].
  Proof. exact c18_register_is_cleared. Qed.
  (** build_trails() changes node types and sequences only (and, on success, the
      stored trails), whatever happens. *)
  Theorem C19_build_frame : forall d ord, reachable d -> same_set_order ord ->
    let d' := fst (build_trails ord false d) in
    same_but_types_and_sequences d d' /\ auxiliary_trails d' = auxiliary_trails d
    /\ d_tol d' = d_tol d /\ d_aux_length d' = d_aux_length d /\ d_aux_vector d' = d_aux_vector d
    /\ (snd (build_trails ord false d) <> Ok tt -> trails d' = trails d).
  Proof. exact c19_build_frame. Qed.
  (** build_trails(True) only adds nodes and edges. *)
  Theorem C19_build_auxiliary_frame : forall d ord, reachable d -> same_set_order ord ->
    let d' := fst (build_trails ord true d) in
    (exists new, nodes d' = nodes d ++ new)
    /\ (forall n, In n (nodes d) -> node_coordinates d' n = node_coordinates d n
          /\ node_load d' n = node_load d n /\ reaction_force d' n = reaction_force d n)
    /\ (forall e, In e (edges d) -> In e (edges d') /\ edge_get d' e = edge_get d e)
    /\ (forall u v, In (u, v) (edges d') -> ~ In (u, v) (edges d) -> In u (nodes d) /\ ~ In v (nodes d))
    /\ d_tol d' = d_tol d.
  Proof. exact c19_build_auxiliary_frame. Qed.
  (** shift_trail renumbers exactly the nodes of one trail. *)
  Theorem C20_shift_trail : forall d key s tr, reachable d ->
    is_node_origin d key = Ok true -> In (key, tr) (trails d) -> NoDup tr ->
    exists d', shift_trail key s d = (d', Ok tt)
      /\ same_but_types_and_sequences d d'
      /\ same_settings d d'
      /\ (forall n, is_node_origin d' n = is_node_origin d n /\ is_node_support d' n = is_node_support d n)
      /\ (forall i n, nth_error tr i = Some n -> node_sequence d' n = Ok (s + Z.of_nat i))
      /\ (forall n, ~ In n tr -> node_sequence d' n = node_sequence d n)
      /\ (exists m, trail_sequences d' key = Ok m
            /\ forall k n, dget m k = Some n <-> exists i, nth_error tr i = Some n /\ k = s + Z.of_nat i).
  Proof. exact c20_shift_trail. Qed.
  (** shift_trail on a node that is not an origin raises and changes nothing. *)
  Theorem C20_shift_rejects : forall d key s, is_node_origin d key = Ok false ->
    shift_trail key s d = (d, Err (AssertionError "That is not an origin node!")).
  Proof. exact c20_shift_rejects. Qed.
  (** sequences() partitions the nodes. *)
  Theorem C21_sequences : forall d, reachable d -> nodes d <> [] ->
    (forall n, In n (nodes d) -> exists k, node_sequence d n = Ok k /\ 0 <= k) ->
    exists ss num, sequences d = Ok ss /\ number_of_sequences d = Ok num
      (* the groups are 0, 1, ..., num - 1 *)
      /\ map fst ss = zrange num
      (* group k holds exactly the nodes with sequence k *)
      /\ (forall k g, In (k, g) ss -> NoDup g
            /\ forall n, In n g <-> In n (nodes d) /\ node_sequence d n = Ok k)
      (* every node is in exactly one group, once *)
      /\ Permutation (concat (map snd ss)) (nodes d)
      (* num is one more than the largest sequence *)
      /\ (forall n k, node_sequence d n = Ok k -> k < num)
      /\ (exists n, In n (nodes d) /\ node_sequence d n = Ok (num - 1)).
  Proof. exact c21_sequences. Qed.
  (** Direct and indirect deviation edges partition the deviation edges. *)
  Theorem C22_direct_indirect : forall d, reachable d -> sequenced d ->
    exists ds is, direct_deviation_edges d = Ok ds /\ indirect_deviation_edges d = Ok is
      /\ (forall u v, In (u, v) ds <-> In (u, v) (deviation_edges d)
            /\ exists k, node_sequence d u = Ok k /\ node_sequence d v = Ok k)
      /\ (forall u v, In (u, v) is <-> In (u, v) (deviation_edges d)
            /\ exists j k, node_sequence d u = Ok j /\ node_sequence d v = Ok k /\ j <> k)
      /\ Permutation (ds ++ is) (deviation_edges d)
      /\ NoDup (deviation_edges d)
      /\ (forall e, In e (trail_edges d) -> ~ In e ds /\ ~ In e is).
  Proof. exact c22_direct_indirect. Qed.
  (** The connected-edge queries return exactly the incident edges of the type, in
      their stored orientation, once each. *)
  Theorem C23_connected_edges : forall d n, reachable d -> simple_graph d -> In n (nodes d) ->
    (exists l, connected_trail_edges d n = Ok l /\ NoDup l
       /\ forall e, In e l <-> In e (trail_edges d) /\ (fst e = n \/ snd e = n))
    /\ (exists l, connected_deviation_edges d n = Ok l /\ NoDup l
       /\ forall e, In e l <-> In e (deviation_edges d) /\ (fst e = n \/ snd e = n)).
  Proof. exact c23_connected_edges. Qed.
  (** trails_sequences() inverts node_sequence on every stored trail. *)
  Theorem C24_trails_sequences : forall d, reachable d ->
    (forall key tr n, In (key, tr) (trails d) -> In n tr -> exists k, node_sequence d n = Ok k) ->
    exists ts, trails_sequences d = Ok ts
      /\ (forall key k n, lookup_ts ts key k = Some n ->
            exists tr, In (key, tr) (trails d) /\ In n tr /\ node_sequence d n = Ok k)
      /\ (forall key tr, In (key, tr) (trails d) ->
            (forall n n' k, In n tr -> In n' tr -> node_sequence d n = Ok k -> node_sequence d n' = Ok k -> n = n') ->
            forall n k, (In n tr /\ node_sequence d n = Ok k) <-> lookup_ts ts key k = Some n).
  Proof. exact c24_trails_sequences. Qed.
  (** After building a well-posed topology, entry i of a trail is its i-th node. *)
  Theorem C24_after_build : forall d ord P d', reachable d -> same_set_order ord ->
    chains d P -> covers d P -> P <> [] -> build_trails ord false d = (d', Ok tt) ->
    exists ts, trails_sequences d' = Ok ts
      /\ forall p, In p P -> forall k n, lookup_ts ts (hd 0 p) k = Some n
           <-> exists i, nth_error p i = Some n /\ k = Z.of_nat i.
  Proof. exact c24_after_build. Qed.
  (** On well-posed chains build_trails keeps every support and adds none. *)
  Theorem C59_supports_kept_partial : forall d ord P d', reachable d -> same_set_order ord ->
    chains d P -> covers d P -> P <> [] -> build_trails ord false d = (d', Ok tt) ->
    forall n, is_node_support d' n = Ok true <-> is_node_support d n = Ok true.
  Proof. exact c59_supports_kept_partial. Qed.
  (** support_nodes and origin_nodes list exactly the nodes of that kind, once each,
      and the predicates answer accordingly. *)
  Theorem C67_nodes : forall d, produced d ->
    NoDup (support_nodes d) /\ NoDup (origin_nodes d)
    /\ (forall n, In n (support_nodes d) -> In n (nodes d) /\ ~ In n (origin_nodes d))
    /\ (forall n, In n (origin_nodes d) -> In n (nodes d))
    /\ (forall n, In n (nodes d) -> exists a, node_get d n = Ok a
          /\ (In n (support_nodes d) <-> na_type a = Some TSupport)
          /\ (In n (origin_nodes d) <-> na_type a = Some TOrigin)
          /\ (is_node_support d n = Ok true <-> na_type a = Some TSupport)
          /\ (is_node_support d n = Ok false <-> na_type a <> Some TSupport)
          /\ (is_node_origin d n = Ok true <-> na_type a = Some TOrigin)
          /\ (is_node_origin d n = Ok false <-> na_type a <> Some TOrigin)).
  Proof. exact c67_nodes. Qed.
  (** loaded_nodes lists exactly the nodes whose load is larger than the threshold. *)
  Theorem C67_loaded : forall d m, produced d ->
    exists l, loaded_nodes d m = Ok l /\ NoDup l
      /\ forall n, In n l <-> exists q, node_load d n = Ok q /\ nltb m (length_vector q) = true.
  Proof. exact c67_loaded. Qed.
  (** An edge between existing nodes is supported when one of its ends is a support. *)
  Theorem C67_supported : forall d u v, produced d -> In u (nodes d) -> In v (nodes d) ->
    exists b, is_edge_supported d (u, v) = Ok b
      /\ (b = true <-> In u (support_nodes d) \/ In v (support_nodes d)).
  Proof. exact c67_supported. Qed.
  (** Every edge is a trail edge or a deviation edge, and not both. *)
  Theorem C67_edges : forall d, produced d ->
    Permutation (edges d) (trail_edges d ++ deviation_edges d)
    /\ NoDup (edges d)
    /\ (forall e, In e (edges d) ->
          is_trail_edge d e = Ok true /\ is_deviation_edge d e = Ok false /\ In e (trail_edges d)
          \/ is_trail_edge d e = Ok false /\ is_deviation_edge d e = Ok true /\ In e (deviation_edges d))
    /\ (forall e, ~ In e (edges d) -> is_trail_edge d e = Err KeyError /\ is_deviation_edge d e = Err KeyError).
  Proof. exact c67_edges. Qed.
  (** Every registered auxiliary trail is an edge, and auxiliary_trail_edges lists
      exactly the registered ones, once each. *)
  Theorem C67_auxiliary : forall d, reachable d ->
    NoDup (auxiliary_trail_edges d)
    /\ (forall e, In e (auxiliary_trail_edges d) <-> exists key, In (key, e) (auxiliary_trails d))
    /\ (forall e, is_auxiliary_trail_edge d e = true <-> exists key, In (key, e) (auxiliary_trails d))
    /\ (forall key e, In (key, e) (auxiliary_trails d) -> In e (edges d)).
  Proof. exact c67_auxiliary. Qed.
End Generic.
Print Assumptions C11_build_trails_total.
Print Assumptions C11_search_bound.
Print Assumptions C12_trail_structure.
Print Assumptions C13_no_incomplete_trails.
Print Assumptions C13_auxiliary_failure_keeps_trails.
Print Assumptions C14_chains_recovered.
Print Assumptions C15_one_trail_partial.
Print Assumptions C16_rebuild_partial.
Print Assumptions C17_auxiliary_trails.
Print Assumptions C18_register_is_cleared.
Print Assumptions C19_build_frame.
Print Assumptions C19_build_auxiliary_frame.
Print Assumptions C20_shift_trail.
Print Assumptions C20_shift_rejects.
Print Assumptions C21_sequences.
Print Assumptions C22_direct_indirect.
Print Assumptions C23_connected_edges.
Print Assumptions C24_trails_sequences.
Print Assumptions C24_after_build.
Print Assumptions C59_supports_kept_partial.
Print Assumptions C67_nodes.
Print Assumptions C67_loaded.
Print Assumptions C67_supported.
Print Assumptions C67_edges.
Print Assumptions C67_auxiliary.

(** ** Over the real numbers *)

(** Over the reals: a node is listed as loaded when its load vector is longer than the threshold. *)
Theorem C67_loaded_length : forall (d : diagram R) m l, produced d -> loaded_nodes d m = Ok l ->
  forall n, In n l <-> exists q, node_load d n = Ok q
    /\ (m < sqrt (vx q * vx q + vy q * vy q + vz q * vz q))%R.
Proof. exact c67_loaded_length. Qed.
Print Assumptions C67_loaded_length.

(** ** What does not hold *)

Theorem C12_self_loop_refuted : exists (d d' : diagram float) key tr, reachable d
  /\ build_trails id_order false d = (d', Ok tt) /\ In (key, tr) (trails d') /\ ~ NoDup tr.
Proof. exact c12_self_loop_refuted. Qed.
Theorem C12_antiparallel_refuted : exists (d d' : diagram float) key tr m, reachable d
  /\ build_trails id_order false d = (d', Ok tt) /\ In (key, tr) (trails d')
  /\ trail_joined d' key m /\ ~ In m tr.
Proof. exact c12_antiparallel_refuted. Qed.
Theorem C15_refuted : exists (d d' : diagram float) n, reachable d /\ simple_graph d
  /\ build_trails id_order false d = (d', Ok tt) /\ In n (nodes d')
  /\ forall key tr, In (key, tr) (trails d') -> ~ In n tr.
Proof. exact c15_refuted. Qed.
Theorem C15_twice_refuted : exists (d d' : diagram float) n, reachable d /\ simple_graph d
  /\ build_trails id_order false d = (d', Ok tt) /\ In n (nodes d')
  /\ exists key tr key' tr', In (key, tr) (trails d') /\ In n tr
       /\ In (key', tr') (trails d') /\ In n tr' /\ key <> key'.
Proof. exact c15_twice_refuted. Qed.
Theorem C16_refuted : exists (d d' : diagram float) d'' msg, reachable d /\ simple_graph d
  /\ build_trails id_order false d = (d', Ok tt)
  /\ build_trails id_order false d' = (d'', Err (AssertionError msg)).
Proof. exact c16_refuted. Qed.
(** Auxiliary trails are forgotten by the second call. *)
Theorem C18_refuted : exists (d d' d'' : diagram float), reachable d
  /\ build_trails id_order true d = (d', Ok tt) /\ List.length (auxiliary_trails d') = 2%nat
  /\ build_trails id_order true d' = (d'', Ok tt)
  /\ edges d'' = edges d' /\ auxiliary_trails d'' = [] /\ auxiliary_trail_edges d'' = [].
Proof. exact c18_refuted. Qed.
Theorem C59_refuted : exists (d d' : diagram float) n, reachable d /\ simple_graph d
  /\ build_trails id_order false d = (d', Ok tt)
  /\ is_node_support d n = Ok true /\ is_node_support d' n = Ok false.
Proof. exact c59_refuted. Qed.
Print Assumptions C12_self_loop_refuted.
Print Assumptions C12_antiparallel_refuted.
Print Assumptions C15_refuted.
Print Assumptions C15_twice_refuted.
Print Assumptions C16_refuted.
Print Assumptions C18_refuted.
Print Assumptions C59_refuted.

(** ** The hypotheses can be met *)

(** C11 - C16, C19, C24, C59: the braced tower of the test suite, two trails *)
Example C14_nonvacuous : reachable tower /\ same_set_order id_order /\ same_set_order (@rev Z)
  /\ simple_graph tower /\ chains tower tower_chains /\ covers tower tower_chains /\ tower_chains <> []
  /\ build_trails id_order false tower = (tower_built, Ok tt)
  /\ trails tower_built = [(2, [2; 1; 0]); (5, [5; 4; 3])].
Proof.
  split; [apply tower_reachable|]. split; [apply id_order_same|]. split; [apply rev_order_same|].
  split; [apply simple_b_ok; vm_compute; reflexivity|].
  split; [apply tower_chains_ok|]. split; [apply tower_chains_ok|]. split; [discriminate|].
  split; vm_compute; reflexivity.
Qed.

(** C11: a trail-edge cycle next to a supported chain does not loop; C13: the
    three ways to fail *)
Definition cycle : list (op float) :=
  [node zf 0 0 0 0; node zf 1 1 0 0; node zf 2 2 0 0; node zf 3 3 0 0;
   trail_e zf 0 1 1; trail_e zf 1 2 1; trail_e zf 2 0 1; trail_e zf 0 3 1; sup 3].
Example C11_nonvacuous :
  trails (made (cycle ++ [build])) = [(1, [1; 2; 0; 3])]
  /\ snd (build_trails id_order false (made (support_missing zf)))
     = Err (AssertionError "Nodes haven't been assigned to a trail.")
  /\ snd (build_trails id_order false (made (no_trails zf))) = Err (AssertionError "No trail edges defined!")
  /\ snd (build_trails id_order false (made (unsupported zf))) = Err (AssertionError "No supports assigned!").
Proof. comps. Qed.

(** C12 also covers the branched diagrams of the counterexamples to C15. *)
Example C12_nonvacuous : reachable (made star) /\ simple_graph (made star)
  /\ build_trails id_order false (made star) = (made (star ++ [build]), Ok tt)
  /\ trails (made (star ++ [build])) = [(3, [3; 1; 4]); (4, [4; 1; 2])].
Proof.
  split; [made_reachable|]. split; [apply simple_b_ok; vm_compute; reflexivity|]. comps.
Qed.

(** C13, auxiliary: a failing call *)
Example C13_nonvacuous : exists d' e, build_trails id_order true (empty_diagram (T := float)) = (d', Err e).
Proof. eexists. eexists. vm_compute. reflexivity. Qed.

(** C17, C18: the tree of the test suite *)
Example C17_nonvacuous : reachable tree /\ chains tree tree_chains /\ nodes tree <> []
  /\ build_trails id_order true tree = (made (tree_2d zf ++ [build_aux]), Ok tt)
  /\ trails (made (tree_2d zf ++ [build_aux])) = [(3, [3; 4]); (1, [1; 5]); (2, [2; 6])]
  /\ auxiliary_trails (made (tree_2d zf ++ [build_aux])) = [(1, (1, 5)); (2, (2, 6))].
Proof.
  split; [apply tree_reachable|]. split; [apply tree_chains_ok|]. split; [apply tree_chains_ok|].
  split; [vm_compute; reflexivity|]. split; vm_compute; reflexivity.
Qed.

(** C20: shifting a trail of the built tower *)
Example C20_nonvacuous : reachable tower_built /\ is_node_origin tower_built 2 = Ok true
  /\ In (2, [2; 1; 0]) (trails tower_built) /\ NoDup [2; 1; 0]
  /\ trail_sequences (fst (shift_trail 2 4 tower_built)) 2 = Ok [(4, 2); (5, 1); (6, 0)]
  /\ is_node_origin tower_built 1 = Ok false.
Proof.
  split; [apply tower_built_reachable|]. split; [comp|]. split; [comp|].
  split; [apply nodup_b_ok; reflexivity|]. comps.
Qed.

(** C21 - C24: the built tower has sequences, direct and indirect deviation edges *)
Lemma tower_built_sequenced : forall n, In n (nodes tower_built) -> exists k, node_sequence tower_built n = Ok k /\ 0 <= k.
Proof.
  intros n I. vm_compute in I. repeat destruct I as [<-|I]; try contradiction;
    (eexists; split; [vm_compute; reflexivity|vm_compute; discriminate]).
Qed.
Example C21_nonvacuous : reachable tower_built /\ nodes tower_built <> []
  /\ (forall n, In n (nodes tower_built) -> exists k, node_sequence tower_built n = Ok k /\ 0 <= k)
  /\ sequences tower_built = Ok [(0, [2; 5]); (1, [1; 4]); (2, [0; 3])]
  /\ simple_graph tower_built.
Proof.
  split; [apply tower_built_reachable|]. split; [vm_compute; discriminate|].
  split; [apply tower_built_sequenced|]. split; [vm_compute; reflexivity|].
  apply simple_b_ok. vm_compute. reflexivity.
Qed.
Example C22_nonvacuous : sequenced tower_built
  /\ direct_deviation_edges tower_built = Ok [(1, 4); (2, 5)]
  /\ indirect_deviation_edges tower_built = Ok [(1, 5); (1, 3); (2, 4)].
Proof.
  split; [intros n I; destruct (tower_built_sequenced n I) as (k&E&_); exists k; exact E|]. comps.
Qed.
Example C24_nonvacuous :
  (forall key tr n, In (key, tr) (trails tower_built) -> In n tr -> exists k, node_sequence tower_built n = Ok k)
  /\ trails_sequences tower_built = Ok [(2, [(0, 2); (1, 1); (2, 0)]); (5, [(0, 5); (1, 4); (2, 3)])].
Proof.
  split; [|vm_compute; reflexivity]. intros key tr n I J.
  destruct (tower_built_sequenced n) as (k&E&_); [|exists k; exact E].
  vm_compute in I. destruct I as [I|[I|[]]]; injection I as <- <-; vm_compute; vm_compute in J; tauto.
Qed.

(** C67: the tree with its auxiliary trails has supports, origins, loads and auxiliary edges. *)
Example C67_nonvacuous : reachable (made (tree_2d zf ++ [build_aux]))
  /\ support_nodes (made (tree_2d zf ++ [build_aux])) <> [] /\ origin_nodes (made (tree_2d zf ++ [build_aux])) <> []
  /\ (exists n l, loaded_nodes (made (tree_2d zf ++ [build_aux])) 0x1p-20%float = Ok (n :: l))
  /\ auxiliary_trail_edges (made (tree_2d zf ++ [build_aux])) = [(1, 5); (2, 6)].
Proof.
  split; [made_reachable|]. split; [vm_compute; discriminate|]. split; [vm_compute; discriminate|].
  split; [eexists; eexists; vm_compute; reflexivity|vm_compute; reflexivity].
Qed.
