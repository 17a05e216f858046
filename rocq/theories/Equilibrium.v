(** * Form finding

    Model of compas_cem/equilibrium/force.py and compas_cem/diagrams/form.py.
    What is printed and the calls of [callback] are in Messages.v. *)

From Coq Require Import List ZArith Bool String.
From Verif Require Import Py Num Diagram Topology.
Import ListNotations.
Open Scope Z_scope.

(** The containers updated by equilibrium_state (force.py:69-74) *)
Record eqstate (T : Type) : Type := mkEq {
  s_xyz : dict Z (vec T);       (* node_xyz *)
  s_res : dict Z (vec T);       (* residual_vectors *)
  s_reac : dict Z (vec T);      (* reaction_forces *)
  s_tforce : dict ekey T;       (* trail_forces *)
  s_tdir : dict ekey (vec T)    (* trail_directions *)
}.
Arguments mkEq {T} _ _ _ _ _.
Arguments s_xyz {T} _.
Arguments s_res {T} _.
Arguments s_reac {T} _.
Arguments s_tforce {T} _.
Arguments s_tdir {T} _.

Section Equilibrium.
  Context {T : Type} `{NumOps T}.

  (** vector_two_nodes(a, b, normalize=True) (force.py:273-295) *)
  Definition vector_two_nodes (a b : vec T) : vec T :=
    normalize_vector (subtract_vectors a b).

  (** incoming_edge_vectors(node, node_xyz, edges, True) (force.py:260-270) *)
  Definition incoming_edge_vectors (node : Z) (xyz : dict Z (vec T)) (es : list ekey) : res (list (vec T)) :=
    map_res (fun e : ekey =>
      let other := if negb (Z.eqb (fst e) node) then fst e else snd e in
      let* a := dgetr xyz other in
      let* b := dgetr xyz node in
      Ok (vector_two_nodes a b)) es.

  (** deviation_edges_resultant_vector (force.py:298-329) *)
  Definition deviation_edges_resultant_vector (d : diagram T) (node : Z) (xyz : dict Z (vec T)) (es : list ekey) : res (vec T) :=
    let* vectors := incoming_edge_vectors node xyz es in
    let* forces := map_res (edge_force d) es in
    Ok (fold_left (fun r fv => add_vectors r (scale_vector (snd fv) (fst fv)))
                  (combine forces vectors) vzero).

  (** direct_deviation_edges_resultant_vector (force.py:332-349) *)
  Definition direct_resultant (d : diagram T) (node : Z) (xyz : dict Z (vec T)) : res (vec T) :=
    let* es := connected_direct_deviation_edges d node in
    deviation_edges_resultant_vector d node xyz es.

  (** indirect_deviation_edges_resultant_vector (force.py:352-369) *)
  Definition indirect_resultant (d : diagram T) (node : Z) (xyz : dict Z (vec T)) : res (vec T) :=
    let* es := connected_indirect_deviation_edges d node in
    deviation_edges_resultant_vector d node xyz es.

  (** the literal -1.0 *)
  Definition nminus1 : T := nopp n1.

  (** trail_vector_out (force.py:372-396) *)
  Definition trail_vector_out (tvec_in q rd ri : vec T) : vec T :=
    scale_vector (fold_left add_vectors [tvec_in; q; rd; ri] vzero) nminus1.

  (** node_equilibrium (force.py:223-257) *)
  Definition node_equilibrium (d : diagram T) (node : Z) (t_vec : vec T) (xyz : dict Z (vec T)) (indirect : bool) : res (vec T) :=
    let tvec_in := scale_vector t_vec nminus1 in
    let* q := node_load d node in
    let* rd := direct_resultant d node xyz in
    let* ri := if indirect then indirect_resultant d node xyz else Ok vzero in
    Ok (trail_vector_out tvec_in q rd ri).

  (** trail_length_from_plane_intersection (force.py:399-430) *)
  Definition trail_length_from_plane (point vector : vec T) (plane : vec T * vec T) (tol : T) : option T :=
    let '(origin, normal) := plane in
    let cos_nv := dot_vectors normal (normalize_vector vector) in
    if nltb (nabs cos_nv) tol then None
    else
      let oa := subtract_vectors origin point in
      let cos_noa := dot_vectors normal oa in
      Some (ndiv cos_noa cos_nv).

  (** The signed length of a trail edge (force.py:124-145): the plane takes
      precedence unless the intersection length is None or zero. *)
  Definition trail_edge_length (a : edge_attr T) (pos rvec : vec T) : T :=
    match ea_plane a with
    | None => ea_length a
    | Some plane =>
        match trail_length_from_plane pos rvec plane neps6 with
        | Some plength => if ntruthy plength then plength else ea_length a
        | None => ea_length a
        end
    end.

  (** The edge key of two consecutive trail nodes (force.py:119-122) *)
  Definition trail_edge_key (d : diagram T) (node next : Z) : ekey :=
    if has_edge d (node, next) then (node, next) else (next, node).

  (** The body of the loop over trails (force.py:90-163) *)
  Definition visit (d : diagram T) (ts : dict Z (dict Z Z)) (kmax : option Z) (indirect : bool)
             (k : Z) (st : eqstate T) (key : Z) : res (eqstate T) :=
    let* m := dgetr ts key in
    match dget m k with
    | None => Ok st
    | Some node =>
        let* pos := dgetr (s_xyz st) node in
        let* rin := dgetr (s_res st) node in
        let* rvec := node_equilibrium d node rin (s_xyz st) indirect in
        let* sup := is_node_support d node in
        if sup || match kmax with Some km => Z.eqb k km | None => false end then
          Ok (mkEq (s_xyz st) (s_res st) (dset (s_reac st) node rvec) (s_tforce st) (s_tdir st))
        else
          let* next := dgetr m (k + 1) in
          let edge := trail_edge_key d node next in
          let* a := edge_get d edge in
          let length := trail_edge_length a pos rvec in
          let nrvec := normalize_vector rvec in
          let next_pos := add_vectors pos (scale_vector nrvec length) in
          Ok (mkEq (dset (s_xyz st) next next_pos)
                   (dset (s_res st) next rvec)
                   (s_reac st)
                   (dset (s_tforce st) edge (ncopysign (length_vector rvec) length))
                   (dset (s_tdir st) edge nrvec))
    end.

  (** One iteration over all sequences and trails (force.py:88-163) *)
  Definition sweep (d : diagram T) (ts : dict Z (dict Z Z)) (kmax : option Z) (indirect : bool)
             (st : eqstate T) : res (eqstate T) :=
    let* n := number_of_sequences d in
    fold_res (fun st k => fold_res (visit d ts kmax indirect k) (dkeys (trails d)) st) (zrange n) st.

  (** The residual distance (force.py:169-173) *)
  Definition residual_distance (last now : dict Z (vec T)) : res T :=
    fold_res (fun acc kp =>
      let* lp := dgetr last (fst kp) in
      Ok (nadd acc (distance_point_point lp (snd kp)))) now n0.

  (** The loop over iterations (force.py:83-177).  [t] is the index of the next
      iteration and [n] the number of iterations left; the result holds the final
      state and the values of the Python variables [t] and [distance] ([None] while
      unbound). *)
  Fixpoint iterate (d : diagram T) (ts : dict Z (dict Z Z)) (kmax : option Z) (eta : T)
           (n t : nat) (distance : option T) (st : eqstate T) : res (eqstate T * option nat * option T) :=
    match n with
    | O => Ok (st, match t with O => None | S t => Some t end, distance)
    | S n =>
        let* st' := sweep d ts kmax (negb (Nat.eqb t 0)) st in
        if Nat.eqb t 0 then iterate d ts kmax eta n (S t) distance st'
        else
          let* dist := residual_distance (s_xyz st) (s_xyz st') in
          if nltb dist eta then Ok (st', Some t, Some dist)
          else iterate d ts kmax eta n (S t) (Some dist) st'
    end.

  (** The initial containers (force.py:69-74) *)
  Definition init_state (d : diagram T) : eqstate T :=
    mkEq (map (fun na => (fst na, na_xyz (snd na))) (d_node d))
         (map (fun na => (fst na, na_reac (snd na))) (d_node d))
         [] [] [].

  (** equilibrium_state (force.py:59-195) *)
  Definition equilibrium_state (d : diagram T) (kmax : option Z) (tmax : Z) (eta : T) (verbose : bool) : res (eqstate T) :=
    if negb (Z.ltb 0 (number_of_trails d)) then Err (AssertionError "No trails in the diagram!")
    else
      let* ts := trails_sequences d in
      let* _ := sequence_last d in
      if match kmax with Some km => Z.ltb km 0 | None => false end
      then Err (AssertionError "Kmax must be a non-negative number!")
      else
        let* r := iterate d ts kmax eta (Z.to_nat tmax) 0 None (init_state d) in
        let '(st, t, distance) := r in
        match t with
        | None => Err UnboundLocalError
        | Some t =>
            if negb (Nat.eqb t 0) then
              match distance with
              | None => Err UnboundLocalError
              | Some dist =>
                  if nltb eta dist then Err (ValueError "Over iters") else Ok st
              end
            else if verbose && match distance with None => true | Some _ => false end
                 then Err UnboundLocalError
                 else Ok st
        end.

  (** FormDiagram.from_topology_diagram (form.py:34-46): a deep copy (identity on
      immutable values) without the four attributes, here reset to the values of
      an empty diagram. *)
  Definition form_of_topology (d : diagram T) : diagram T :=
    mkDiagram (d_node d) (d_edge d) (d_adj d) (d_max d) (d_gkey d) (d_tol d) [] [] (nopp n1) (V3 n1 n1 n1).

  (** form_update (force.py:198-220) *)
  Definition form_update (st : eqstate T) : eff (diagram T) unit :=
    do* _ := eloop (fun _ (kv : Z * vec T) => node_set (fst kv) (fun a => set_xyz a (snd kv))) (s_xyz st) tt in
    do* _ := eloop (fun _ (ev : ekey * T) => edge_set (fst ev) (fun a => set_force a (snd ev))) (s_tforce st) tt in
    do* _ := eloop (fun _ (kv : Z * vec T) => node_set (fst kv) (fun a => set_reac a (snd kv))) (s_reac st) tt in
    do* es := eget (fun d => Ok (edges d)) in
    eloop (fun _ (e : ekey) =>
      do* pu := eget (fun d => node_coordinates d (fst e)) in
      do* pv := eget (fun d => node_coordinates d (snd e)) in
      let length := distance_point_point pu pv in
      do* force := eget (fun d => edge_force d e) in
      edge_set e (fun a => set_length a (ncopysign length force))) es tt.

  (** static_equilibrium (force.py:18-56) *)
  Definition static_equilibrium (d : diagram T) (kmax : option Z) (tmax : Z) (eta : T) (verbose : bool) : res (diagram T) :=
    let* st := equilibrium_state d kmax tmax eta verbose in
    match form_update st (form_of_topology d) with
    | (form, Ok tt) => Ok form
    | (_, Err e) => Err e
    end.
End Equilibrium.
