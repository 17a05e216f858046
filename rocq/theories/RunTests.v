(** * The assertions of the repository's test-suite, executed on the model

    These are tests of the model (by computation over binary64 floats), not proofs.
    They compare it with the expectations written in /repo/tests. *)

From Coq Require Import String List ZArith Bool Floats.
From Verif Require Import Py Num Diagram Topology History Equilibrium EquilibriumNp Fixtures Witness.
Import ListNotations.
Open Scope Z_scope.

Definition close (a b : float) : bool := PrimFloat.ltb (PrimFloat.abs (PrimFloat.sub a b)) 0x1p-19%float.
Definition vclose (a b : vec float) : bool := close (vx a) (vx b) && close (vy a) (vy b) && close (vz a) (vz b).

Definition form_of (ops : list (op float)) : res (diagram float) :=
  match script empty_diagram (ops ++ [build]) with
  | Ok d => static_equilibrium d None 100 0x1.4f8b588e368f1p-17%float false (* eta = 1e-5 *)
  | Err e => Err e
  end.

(** The same with static_equilibrium_numpy (test_force.py:159-180) *)
Definition numpy_form_of (ops : list (op float)) : res (diagram float) :=
  match script empty_diagram (ops ++ [build]) with
  | Ok d => static_equilibrium_numpy d 100 0x1.4f8b588e368f1p-17%float false
  | Err e => Err e
  end.

(** check_nodes_xyz, check_edges_forces, check_edges_lengths, check_nodes_reactions
    (tests/equilibrium/test_force.py:197-237) *)
Definition check_one (form : res (diagram float)) (xyz : list (Z * vec float)) (force len : list (ekey * float))
           (reac : list (Z * vec float)) : bool :=
  match form with
  | Err _ => false
  | Ok f =>
      forallb (fun kv => match node_coordinates f (fst kv) with Ok p => vclose p (snd kv) | Err _ => false end) xyz
      && forallb (fun ev => match edge_force f (fst ev) with Ok x => close x (snd ev) | Err _ => false end) force
      && forallb (fun ev => match edge_length_2 f (fst ev) with
                            | Ok x => close (PrimFloat.abs x) (snd ev) | Err _ => false end) len
      && forallb (fun kv => match reaction_force f (fst kv) with Ok p => vclose p (snd kv) | Err _ => false end) reac
  end.

Definition check_form (ops : list (op float)) (xyz : list (Z * vec float)) (force len : list (ekey * float))
           (reac : list (Z * vec float)) : bool :=
  check_one (form_of ops) xyz force len reac && check_one (numpy_form_of ops) xyz force len reac.

Local Open Scope float_scope.
Local Set Warnings "-inexact-float".

(** cs_out (test_force.py:16-24) *)
Example compression_strut_output : check_form (compression_strut zf)
  [(0%Z, V3 0 1 0); (1%Z, V3 0 2 0)] [((0, 1)%Z, -1)] [((0, 1)%Z, 1)] [(0%Z, V3 0 1 0)] = true.
Proof. vm_compute. reflexivity. Qed.

(** tc_out (test_force.py:27-45) *)
Example tension_chain_output : check_form (tension_chain zf)
  [(0%Z, V3 0 0 0); (1%Z, V3 1.5 0 0); (2%Z, V3 2.5 0 0); (3%Z, V3 4 0 0)]
  [((0, 1)%Z, 1); ((1, 2)%Z, 1); ((2, 3)%Z, 1)]
  [((0, 1)%Z, 1.5); ((1, 2)%Z, 1); ((2, 3)%Z, 1.5)] [(3%Z, V3 1 0 0)] = true.
Proof. vm_compute. reflexivity. Qed.

(** cc_out (test_force.py:48-66) *)
Example compression_chain_output : check_form (compression_chain zf)
  [(0%Z, V3 0 0 0); (1%Z, V3 1.5 0 0); (2%Z, V3 2.5 0 0); (3%Z, V3 4 0 0)]
  [((0, 1)%Z, -1); ((1, 2)%Z, -1); ((2, 3)%Z, -1)]
  [((0, 1)%Z, 1.5); ((1, 2)%Z, 1); ((2, 3)%Z, 1.5)] [(3%Z, V3 (-1) 0 0)] = true.
Proof. vm_compute. reflexivity. Qed.

(** tf_out (test_force.py:69-88) *)
Example threebar_funicular_output : check_form (threebar_funicular zf)
  [(0%Z, V3 0.29289321881345254 (-0.7071067811865475) 0); (1%Z, V3 1 0 0); (2%Z, V3 2.5 0 0);
   (3%Z, V3 3.207106 (-0.7071067) 0)]
  [((0, 1)%Z, -1.414213561); ((1, 2)%Z, -1); ((2, 3)%Z, -1.41421356)]
  [((0, 1)%Z, 1); ((1, 2)%Z, 1.5); ((2, 3)%Z, 1)]
  [(0%Z, V3 1 1 0); (3%Z, V3 (-1) 1 0)] = true.
Proof. vm_compute. reflexivity. Qed.

(** bt2_out (test_force.py:91-126) *)
Example braced_tower_2d_output : check_form (braced_tower_2d zf)
  [(0%Z, V3 0.11891271935545733 0.04623304043571308 0); (1%Z, V3 (-0.14550216351451895) 1.0106420665842952 0);
   (2%Z, V3 0 2 0); (3%Z, V3 1.5829003695589805 0.11137412111377487 0);
   (4%Z, V3 1.1455022100524879 1.010642073428508 0); (5%Z, V3 1 2 0)]
  [((0, 1)%Z, -1.5154917766302523); ((1, 2)%Z, -1.6714301665432025); ((1, 4)%Z, -1); ((1, 5)%Z, 1);
   ((1, 3)%Z, 1); ((2, 5)%Z, -1); ((2, 4)%Z, 1); ((3, 4)%Z, -1.1120156232900127); ((4, 5)%Z, -1.6714302901903129)]
  [((0, 1)%Z, 1); ((1, 2)%Z, 1); ((1, 4)%Z, 1.2910043735670067); ((1, 5)%Z, 1.5136063976572767);
   ((1, 3)%Z, 1.9483475444811331); ((2, 5)%Z, 1); ((2, 4)%Z, 1.5136064284036903); ((3, 4)%Z, 1); ((4, 5)%Z, 1)]
  [(0%Z, V3 (-0.4007185806081004) 1.4615539484361662 0); (3%Z, V3 0.40071844900288345 0.5384458270605735 0)] = true.
Proof. vm_compute. reflexivity. Qed.

(** tests/equilibrium/test_helpers.py:44-62 *)
Example plane_lengths :
  trail_length_from_plane (V3 1 0 0) (V3 0 1 0) (V3 0 2 0, V3 0 1 0) neps6 = Some 2
  /\ trail_length_from_plane (V3 1 0 0) (V3 0 1 0) (V3 2 0 0, V3 1 0 0) neps6 = None
  /\ trail_length_from_plane (V3 1 0 0) (V3 0 1 0) (V3 0 (-2) 0, V3 0 1 0) neps6 = Some (-2).
Proof. vm_compute. auto. Qed.

Definition is_close (r : res (vec float)) (p : vec float) : bool :=
  match r with Ok q => vclose q p | Err _ => false end.
Definition xyz_of (d : diagram float) : dict Z (vec float) := s_xyz (init_state d).
Definition built (ops : list (op float)) : diagram float := made (ops ++ [build]).
Definition dev_resultant (ops : list (op float)) (n : Z) : res (vec float) :=
  let d := made ops in
  match connected_deviation_edges d n with
  | Ok es => deviation_edges_resultant_vector d n (xyz_of d) es
  | Err e => Err e
  end.
Definition half_sqrt2 : float := 0.5 * PrimFloat.sqrt 2.

(** tests/equilibrium/test_helpers.py:85-166 *)
Example resultants :
  is_close (dev_resultant (compression_strut zf) 0) (V3 0 0 0)
  && is_close (dev_resultant (threebar_funicular zf) 1) (V3 (-1) 0 0)
  && is_close (dev_resultant (threebar_funicular zf) 2) (V3 1 0 0)
  && is_close (dev_resultant (braced_tower_2d zf) 3) (V3 (- half_sqrt2) half_sqrt2 0)
  && is_close (direct_resultant (built (braced_tower_2d zf)) 1 (xyz_of (built (braced_tower_2d zf)))) (V3 (-1) 0 0)
  && is_close (direct_resultant (built (braced_tower_2d zf)) 5 (xyz_of (built (braced_tower_2d zf)))) (V3 1 0 0)
  && is_close (indirect_resultant (built (braced_tower_2d zf)) 4 (xyz_of (built (braced_tower_2d zf))))
       (V3 (- half_sqrt2) half_sqrt2 0)
  && is_close (indirect_resultant (built (braced_tower_2d zf)) 1 (xyz_of (built (braced_tower_2d zf))))
       (V3 (PrimFloat.sqrt 2) 0 0)
  && is_close (indirect_resultant (built (braced_tower_2d zf)) 0 (xyz_of (built (braced_tower_2d zf)))) (V3 0 0 0)
  = true.
Proof. vm_compute. reflexivity. Qed.

Definition node_eq (ops : list (op float)) (n : Z) (indirect : bool) : res (vec float) :=
  let d := built ops in node_equilibrium d n (V3 0 0 0) (xyz_of d) indirect.
Example node_equilibria :
  is_close (node_eq (compression_strut zf) 1 false) (V3 0 1 0)
  && is_close (node_eq (threebar_funicular zf) 2 false) (V3 (-1) 1 0)
  && is_close (node_eq (braced_tower_2d zf) 5 false) (V3 (-1) 1 0)
  && is_close (node_eq (compression_strut zf) 1 true) (V3 0 1 0)
  && is_close (node_eq (threebar_funicular zf) 2 true) (V3 (-1) 1 0)
  && is_close (node_eq (braced_tower_2d zf) 5 true) (V3 (- (1 - half_sqrt2)) (1 + half_sqrt2) 0)
  = true.
Proof. vm_compute. reflexivity. Qed.

(** ** tests/diagrams/test_topology.py *)

Local Open Scope Z_scope.

(** The two lists have the same elements (sets are compared) and the same length. *)
Definition same_keys {A} `{Eqb A} (l m : list A) : bool :=
  Nat.eqb (List.length l) (List.length m) && forallb (fun a => memb a m) l && forallb (fun a => memb a l) m.
Definition same_edges (r : res (list ekey)) (m : list ekey) : bool :=
  match r with Ok l => same_keys l m | Err _ => false end.
Definition many (r : res (list ekey)) (n : nat) : bool :=
  match r with Ok l => Nat.eqb (List.length l) n | Err _ => false end.
Definition strut := made (compression_strut zf).
Definition three := made (threebar_funicular zf).
Definition braced := made (braced_tower_2d zf).
Definition strut_built := built (compression_strut zf).
Definition braced_built := built (braced_tower_2d zf).

(** test_num_keys_trail_edges, test_num_keys_deviation_edges (test_topology.py:8-34) *)
Example typed_edges :
  same_keys (trail_edges strut) [(0, 1)] && same_keys (trail_edges three) [(0, 1); (2, 3)]
  && same_keys (trail_edges braced) [(0, 1); (1, 2); (3, 4); (4, 5)]
  && same_keys (deviation_edges strut) [] && same_keys (deviation_edges three) [(1, 2)]
  && same_keys (deviation_edges braced) [(1, 4); (2, 5); (1, 5); (1, 3); (2, 4)] = true.
Proof. vm_compute. reflexivity. Qed.

(** test_num_origin_nodes, test_num_support_nodes (test_topology.py:41-62) *)
Example origins_and_supports :
  origin_nodes strut = [] /\ List.length (origin_nodes strut_built) = 1%nat
  /\ origin_nodes three = [] /\ List.length (origin_nodes (built (threebar_funicular zf))) = 2%nat
  /\ List.length (support_nodes strut) = 1%nat /\ List.length (support_nodes three) = 2%nat
  /\ List.length (support_nodes (made (unsupported zf))) = 0%nat.
Proof. repeat split; vm_compute; reflexivity. Qed.

(** test_num_connected_deviation_edges, test_keys_connected_deviation_edges (test_topology.py:69-95) *)
Example deviation_edges_at :
  many (connected_deviation_edges strut 0) 0 && many (connected_deviation_edges strut 1) 0
  && many (connected_deviation_edges three 0) 0 && many (connected_deviation_edges three 1) 1
  && many (connected_deviation_edges three 2) 1 && many (connected_deviation_edges three 3) 0
  && many (connected_deviation_edges braced 1) 3
  && same_edges (connected_deviation_edges three 1) [(1, 2)] && same_edges (connected_deviation_edges three 2) [(1, 2)]
  && same_edges (connected_deviation_edges braced 5) [(1, 5); (2, 5)] = true.
Proof. vm_compute. reflexivity. Qed.

(** test_num_connected_trail_edges, test_keys_connected_trail_edges, test_fails_keys_connected_trail_edges
    (test_topology.py:98-137) *)
Example trail_edges_at :
  many (connected_trail_edges strut 0) 1 && many (connected_trail_edges strut 1) 1
  && many (connected_trail_edges three 0) 1 && many (connected_trail_edges three 1) 1
  && many (connected_trail_edges three 2) 1 && many (connected_trail_edges three 3) 1
  && many (connected_trail_edges braced 4) 2 && many (connected_trail_edges braced 2) 1
  && same_edges (connected_trail_edges strut 0) [(0, 1)] && same_edges (connected_trail_edges three 1) [(0, 1)]
  && same_edges (connected_trail_edges three 2) [(2, 3)] && same_edges (connected_trail_edges braced 1) [(0, 1); (1, 2)]
  && negb (same_edges (connected_trail_edges strut 0) [(1, 2)])
  && negb (same_edges (connected_trail_edges braced 1) [(1, 0); (2, 2)]) = true.
Proof. vm_compute. reflexivity. Qed.

(** test_num_keys_direct_deviation_edges, test_num_keys_indirect_deviation_edges,
    test_num_direct_indirect_deviation_edges (test_topology.py:140-190) *)
Definition both (n : Z) (m : nat) (d : diagram float) : bool :=
  match connected_indirect_deviation_edges d n, connected_direct_deviation_edges d n with
  | Ok i, Ok j => Nat.eqb (List.length i + List.length j) m
  | _, _ => false
  end.
Example direct_and_indirect :
  same_edges (connected_direct_deviation_edges strut_built 0) [] && same_edges (connected_direct_deviation_edges braced_built 0) []
  && same_edges (connected_direct_deviation_edges braced_built 1) [(1, 4)] && same_edges (connected_direct_deviation_edges braced_built 2) [(2, 5)]
  && same_edges (connected_direct_deviation_edges braced_built 5) [(2, 5)] && same_edges (connected_direct_deviation_edges braced_built 4) [(1, 4)]
  && same_edges (connected_indirect_deviation_edges strut_built 0) [] && same_edges (connected_indirect_deviation_edges braced_built 0) []
  && same_edges (connected_indirect_deviation_edges braced_built 1) [(1, 3); (1, 5)]
  && same_edges (connected_indirect_deviation_edges braced_built 2) [(2, 4)] && same_edges (connected_indirect_deviation_edges braced_built 3) [(1, 3)]
  && same_edges (connected_indirect_deviation_edges braced_built 4) [(2, 4)] && same_edges (connected_indirect_deviation_edges braced_built 5) [(1, 5)]
  && both 0 0 strut_built && both 1 3 braced_built && both 3 1 braced_built && both 5 2 braced_built = true.
Proof. vm_compute. reflexivity. Qed.

(** ** tests/diagrams/test_trails.py *)

Definition the_trails (d : diagram float) : list (list Z) := map snd (trails d).

(** test_trails_number, test_trails_first_last_node_types, test_trails_type_intermediate_nodes
    (test_trails.py:9-45) *)
Example strut_trails :
  the_trails strut_built = [[1; 0]] /\ is_node_origin strut_built 1 = Ok true /\ is_node_support strut_built 0 = Ok true.
Proof. repeat split; vm_compute; reflexivity. Qed.

(** test_trails_nodes_unassigned, test_trails_no_trail_edges, test_trails_no_supports (test_trails.py:48-74) *)
Definition fails (ops : list (op float)) : bool :=
  match snd (call build (made ops)) with Err (AssertionError _) => true | _ => false end.
Example trail_errors : fails (support_missing zf) && fails (tree_2d zf) && fails (no_trails zf) && fails (unsupported zf) = true.
Proof. vm_compute. reflexivity. Qed.

(** test_auxiliary_trails_auto (test_trails.py:77-93) *)
Example auxiliary_trails_auto :
  let d := made (tree_2d zf ++ [build_aux]) in
  number_of_trails d = 3 /\ number_of_auxiliary_trails d = 2
  /\ same_keys (map (fun t => (List.hd 0 t, List.last t 0)) (the_trails d)) [(3, 4); (1, 5); (2, 6)] = true
  /\ forallb (fun t => Nat.eqb (List.length t) 2) (the_trails d) = true
  /\ same_keys (map snd (auxiliary_trails d)) [(1, 5); (2, 6)] = true
  /\ same_keys (auxiliary_trail_edges d) [(1, 5); (2, 6)] = true.
Proof. repeat split; vm_compute; reflexivity. Qed.

(** test_auxiliary_trails_empty (test_trails.py:95-107) *)
Example auxiliary_trails_empty :
  forallb (fun ops => let d := built ops in
    Z.eqb (number_of_auxiliary_trails d) 0 && Nat.eqb (List.length (auxiliary_trails d)) 0 && Nat.eqb (List.length (auxiliary_trail_edges d)) 0)
    [compression_strut zf; threebar_funicular zf; braced_tower_2d zf] = true.
Proof. vm_compute. reflexivity. Qed.
