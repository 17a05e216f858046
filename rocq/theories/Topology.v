(** * Topology diagrams: trails, sequences and edge queries

    Model of compas_cem/diagrams/topology/topology.py. *)

From Coq Require Import List ZArith Bool String.
From Verif Require Import Py Num Diagram.
Import ListNotations.
Open Scope Z_scope.

Section Topology.
  Context {T : Type} `{NumOps T}.

  (** ** Edge predicates *)

  (** is_trail_edge (topology.py:690-706) *)
  Definition is_trail_edge (d : diagram T) (e : ekey) : res bool :=
    let* a := edge_get d e in Ok (opt_is etype_eqb (ea_type a) ETrail).

  (** is_deviation_edge (topology.py:708-724) *)
  Definition is_deviation_edge (d : diagram T) (e : ekey) : res bool :=
    let* a := edge_get d e in Ok (opt_is etype_eqb (ea_type a) EDeviation).

  (** is_auxiliary_trail_edge (topology.py:726-743) *)
  Definition is_auxiliary_trail_edge (d : diagram T) (e : ekey) : bool :=
    memb e (dvalues (d_aux d)).

  (** node_sequence (topology.py:821-839) *)
  Definition node_sequence (d : diagram T) (n : Z) : res Z :=
    let* a := node_get d n in
    match na_k a with
    | None => Err (ValueError "Node doesn't belong to a sequence yet")
    | Some k => Ok k
    end.

  (** edge_sequence (topology.py:841-856) *)
  Definition edge_sequence (d : diagram T) (e : ekey) : res (Z * Z) :=
    let* a := node_sequence d (fst e) in
    let* b := node_sequence d (snd e) in
    Ok (a, b).

  (** _is_deviation_edge_predicate (topology.py:789-815) *)
  Definition is_deviation_edge_predicate (d : diagram T) (e : ekey) (p : ekey -> res bool) : res bool :=
    let* dev := is_deviation_edge d e in
    if negb dev then Ok false else p e.

  (** is_direct_deviation_edge (topology.py:745-765) *)
  Definition is_direct_deviation_edge (d : diagram T) (e : ekey) : res bool :=
    is_deviation_edge_predicate d e
      (fun e => let* ab := edge_sequence d e in Ok (Z.eqb (fst ab) (snd ab))).

  (** is_indirect_deviation_edge (topology.py:767-787) *)
  Definition is_indirect_deviation_edge (d : diagram T) (e : ekey) : res bool :=
    is_deviation_edge_predicate d e
      (fun e => let* ab := edge_sequence d e in Ok (negb (Z.eqb (fst ab) (snd ab)))).

  (** ** Edge collections *)

  (** edges_where({"type": t}) (topology.py:544-580, compas Graph.edges_where) *)
  Definition edges_of_type (d : diagram T) (t : etype) : list ekey :=
    flat_map (fun ue => map (fun va => (fst ue, fst va))
                          (filter (fun va => opt_is etype_eqb (ea_type (snd va)) t) (snd ue)))
             (d_edge d).

  (** trail_edges (topology.py:544-561) *)
  Definition trail_edges (d : diagram T) : list ekey := edges_of_type d ETrail.

  (** deviation_edges (topology.py:563-580) *)
  Definition deviation_edges (d : diagram T) : list ekey := edges_of_type d EDeviation.

  (** direct_deviation_edges (topology.py:582-602) *)
  Definition direct_deviation_edges (d : diagram T) : res (list ekey) :=
    filter_res (is_direct_deviation_edge d) (edges d).

  (** indirect_deviation_edges (topology.py:604-624) *)
  Definition indirect_deviation_edges (d : diagram T) : res (list ekey) :=
    filter_res (is_indirect_deviation_edge d) (edges d).

  (** auxiliary_trail_edges (topology.py:626-646) *)
  Definition auxiliary_trail_edges (d : diagram T) : list ekey :=
    filter (is_auxiliary_trail_edge d) (edges d).

  (** ** Connected edges *)

  (** _connected_edges_predicate (topology.py:517-538) *)
  Definition connected_edges_predicate (d : diagram T) (n : Z) (p : ekey -> res bool) : res (list ekey) :=
    let* es := connected_edges d n in filter_res p es.

  (** connected_deviation_edges (topology.py:439-454) *)
  Definition connected_deviation_edges (d : diagram T) (n : Z) : res (list ekey) :=
    connected_edges_predicate d n (is_deviation_edge d).

  (** connected_trail_edges (topology.py:456-471) *)
  Definition connected_trail_edges (d : diagram T) (n : Z) : res (list ekey) :=
    connected_edges_predicate d n (is_trail_edge d).

  (** _connected_direct_deviation_edges (topology.py:473-493) *)
  Definition connected_direct_deviation_edges (d : diagram T) (n : Z) : res (list ekey) :=
    connected_edges_predicate d n (is_direct_deviation_edge d).

  (** _connected_indirect_deviation_edges (topology.py:495-515) *)
  Definition connected_indirect_deviation_edges (d : diagram T) (n : Z) : res (list ekey) :=
    connected_edges_predicate d n (is_indirect_deviation_edge d).

  (** ** Node collections *)

  (** is_node_origin (topology.py:652-667) *)
  Definition is_node_origin (d : diagram T) (n : Z) : res bool :=
    let* a := node_get d n in Ok (opt_is ntype_eqb (na_type a) TOrigin).

  (** origin_nodes (topology.py:424-433) *)
  Definition origin_nodes (d : diagram T) : list Z :=
    map fst (filter (fun na => opt_is ntype_eqb (na_type (snd na)) TOrigin) (d_node d)).

  (** ** Trails *)

  (** trails(keys=True) (topology.py:224-247) *)
  Definition trails (d : diagram T) : list (Z * list Z) := d_trails d.

  (** trail(key) (topology.py:205-222) *)
  Definition trail (d : diagram T) (key : Z) : res (list Z) := dgetr (d_trails d) key.

  (** auxiliary_trails(keys=True) (topology.py:249-271) *)
  Definition auxiliary_trails (d : diagram T) : list (Z * ekey) := d_aux d.

  (** number_of_trails, number_of_auxiliary_trails (topology.py:135-155) *)
  Definition number_of_trails (d : diagram T) : Z := Z.of_nat (List.length (d_trails d)).
  Definition number_of_auxiliary_trails (d : diagram T) : Z := Z.of_nat (List.length (d_aux d)).

  (** number_of_support_nodes and number_of_loaded_nodes, with the default min_force (diagram.py:106-126) *)
  Definition number_of_support_nodes (d : diagram T) : Z := Z.of_nat (List.length (support_nodes d)).
  Definition number_of_loaded_nodes (d : diagram T) : res Z :=
    let* l := loaded_nodes d neps6 in Ok (Z.of_nat (List.length l)).

  (** number_of_trail_edges, number_of_deviation_edges, number_of_direct_deviation_edges and
      number_of_indirect_deviation_edges (topology.py:157-199) *)
  Definition number_of_trail_edges (d : diagram T) : Z := Z.of_nat (List.length (trail_edges d)).
  Definition number_of_deviation_edges (d : diagram T) : Z := Z.of_nat (List.length (deviation_edges d)).
  Definition number_of_direct_deviation_edges (d : diagram T) : res Z :=
    let* l := direct_deviation_edges d in Ok (Z.of_nat (List.length l)).
  Definition number_of_indirect_deviation_edges (d : diagram T) : res Z :=
    let* l := indirect_deviation_edges d in Ok (Z.of_nat (List.length l)).

  (** has_trails (topology.py:273-283) *)
  Definition has_trails (d : diagram T) : bool := Z.ltb 0 (number_of_trails d).

  (** [for idx, node in enumerate(trail): node_attribute(node, "_k", s + idx)]
      (topology.py:306-308 and, with s = 0, topology.py:378-379) *)
  Fixpoint set_sequences (s : Z) (l : list Z) : eff (diagram T) unit :=
    match l with
    | [] => eret tt
    | n :: l => do* _ := node_set n (fun a => set_k a s) in set_sequences (s + 1) l
    end.

  (** shift_trail (topology.py:285-308) *)
  Definition shift_trail (key sequence : Z) : eff (diagram T) unit :=
    do* origin := eget (fun d => is_node_origin d key) in
    if negb origin then eraise (AssertionError "That is not an origin node!")
    else
      do* has := eget (fun d => Ok (has_trails d)) in
      if negb has then eraise (ValueError "The diagram has no trails!")
      else
        do* tr := eget (fun d => trail d key) in
        set_sequences sequence tr.

  (** The test in the inner loop of build_trails (topology.py:352-355): the edge
      is looked up as (node, neighbor) and, if that key is missing, reversed. *)
  Definition is_trail_between (d : diagram T) (node nbr : Z) : res bool :=
    match is_trail_edge d (node, nbr) with
    | Err KeyError => is_trail_edge d (nbr, node)
    | r => r
    end.

  (** The inner loop (topology.py:346-363) over the neighbours taken from the end
      of the list: the first one that is not visited and joined by a trail edge. *)
  Fixpoint pick_next (d : diagram T) (visited : list Z) (node : Z) (nbrs : list Z) : res (option Z) :=
    match nbrs with
    | [] => Ok None
    | nbr :: rest =>
        if memb nbr visited then pick_next d visited node rest
        else
          let* is_trail := is_trail_between d node nbr in
          if negb is_trail then pick_next d visited node rest
          else Ok (Some nbr)
    end.

  (** The walk from a support (topology.py:341-369): returns the nodes in the
      order visited, the set of visited nodes and the origin node.  [fuel] bounds
      the [while True] loop. *)
  Fixpoint walk (fuel : nat) (d : diagram T) (tr visited : list Z) (node : Z) : res (list Z * list Z * Z) :=
    match fuel with
    | O => Err OutOfFuel
    | S fuel =>
        let* nbrs := neighbors d node in
        let* nxt := pick_next d visited node (rev nbrs) in
        match nxt with
        | Some nbr =>
            let tr := tr ++ [node] in
            let visited := node :: visited in
            if Z.eqb node nbr
            then (* self loop: last_node == node *)
              Ok (tr ++ [nbr], nbr :: visited, nbr)
            else walk fuel d tr visited nbr
        | None => Ok (tr ++ [node], node :: visited, node)
        end
    end.

  (** Loop fuel: one more than the number of nodes. *)
  Definition walk_fuel (d : diagram T) : nat := S (List.length (d_node d)).

  (** The body of the loop over support nodes (topology.py:335-382). The loop runs
      over all nodes and checks the type of each one when it gets there, because
      support_nodes() is a lazy generator and the body changes node types.
      The accumulator holds [trails] and [nodes_in_trails]. *)
  Definition build_body (acc : dict Z (list Z) * list Z) (support : Z) : eff (diagram T) (dict Z (list Z) * list Z) :=
    do* is_sup := eget (fun d => is_node_support d support) in
    if negb is_sup then eret acc
    else
      do* w := eget (fun d => walk (walk_fuel d) d [] [] support) in
      let '(tr, visited, origin) := w in
      do* _ := node_set origin (fun a => set_type a TOrigin) in
      let tr := rev tr in
      do* _ := set_sequences 0 tr in
      eret (dset (fst acc) origin tr, visited ++ snd acc).

  (** The search part (topology.py:330-386): the trails and the unassigned nodes.
      The iteration order of the set [unassigned] is given by [ord]. *)
  Definition build_search (ord : list Z -> list Z) : eff (diagram T) (dict Z (list Z) * list Z) :=
    do* ns := eget (fun d => Ok (nodes d)) in
    do* acc := eloop build_body ns ([], []) in
    do* ns := eget (fun d => Ok (nodes d)) in
    eret (fst acc, ord (filter (fun n => negb (memb n (snd acc))) ns)).

  (** The checks at the end of build_trails (topology.py:408-418) *)
  Definition build_finish (trs : dict Z (list Z)) (unassigned : list Z) : eff (diagram T) unit :=
    do* ne := eget (fun d => Ok (List.length (trail_edges d))) in
    if Nat.eqb ne 0 then eraise (AssertionError "No trail edges defined!")
    else
      do* ns := eget (fun d => Ok (List.length (support_nodes d))) in
      if Nat.eqb ns 0 then eraise (AssertionError "No supports assigned!")
      else
        if negb (Nat.eqb (List.length unassigned) 0)
        then eraise (AssertionError "Nodes haven't been assigned to a trail.")
        else fun d => (with_trails d trs, Ok tt).

  (** The loop that creates auxiliary trails (topology.py:394-401) *)
  Definition aux_body (dir : vec T) (acc : dict Z ekey) (node : Z) : eff (diagram T) (dict Z ekey) :=
    do* len := eget (fun d => Ok (d_aux_length d)) in
    do* xyz := eget (fun d => node_coordinates d node) in
    let aux_xyz := add_vectors xyz (scale_vector dir len) in
    do* aux_node := add_node None aux_xyz in
    do* _ := add_support (RKey aux_node) in
    do* e := add_edge (RKey node) (RKey aux_node) (TrailEdge len None) in
    eret (dset acc node e).

  (** build_trails(auxiliary_trails) (topology.py:310-418) *)
  Definition build_trails_plain (ord : list Z -> list Z) : eff (diagram T) unit :=
    do* r := build_search ord in
    build_finish (fst r) (snd r).

  Definition build_trails (ord : list Z -> list Z) (auxiliary : bool) : eff (diagram T) unit :=
    if auxiliary then
      do* r := build_search ord in
      do* dir := eget (fun d => Ok (normalize_vector (d_aux_vector d))) in
      do* aux := eloop (aux_body dir) (snd r) [] in
      do* _ := (fun d => (with_aux d aux, Ok tt)) in
      build_trails_plain ord
    else build_trails_plain ord.

  (** ** Sequences *)

  (** sequence_last (topology.py:897-906): [max] of an empty list raises
      ValueError and comparing [None] raises TypeError.  Simplification: for a
      diagram with a single node and no sequence, Python returns [None] here and
      raises TypeError at the first use of the value. *)
  Definition sequence_last (d : diagram T) : res Z :=
    let* ks := map_res (fun na => match na_k (snd na) with
                                  | Some k => Ok k
                                  | None => Err TypeError
                                  end) (d_node d) in
    match ks with
    | [] => Err (ValueError "max() arg is an empty sequence")
    | k :: ks => Ok (fold_left Z.max ks k)
    end.

  (** number_of_sequences (topology.py:884-895) *)
  Definition number_of_sequences (d : diagram T) : res Z :=
    let* k := sequence_last d in Ok (k + 1).

  (** range(n) *)
  Definition zrange (n : Z) : list Z := map Z.of_nat (seq 0 (Z.to_nat n)).

  (** sequences(keys=True) (topology.py:858-882) *)
  Definition sequences (d : diagram T) : res (list (Z * list Z)) :=
    let* n := number_of_sequences d in
    map_res (fun k =>
      let* s := filter_res (fun m => let* km := node_sequence d m in Ok (Z.eqb km k)) (nodes d) in
      Ok (k, s)) (zrange n).

  (** trail_sequences (topology.py:912-930) *)
  Definition trail_sequences (d : diagram T) (key : Z) : res (dict Z Z) :=
    let* tr := trail d key in
    fold_res (fun m n => let* k := node_sequence d n in Ok (dset m k n)) tr [].

  (** trails_sequences (topology.py:932-949) *)
  Definition trails_sequences (d : diagram T) : res (dict Z (dict Z Z)) :=
    fold_res (fun m kt => let* s := trail_sequences d (fst kt) in Ok (dset m (fst kt) s)) (trails d) [].
End Topology.
