(** * Form finding with arrays

    Model of compas_cem/equilibrium/force_numpy.py.  Arrays of three floats are
    vectors; [np.linalg.norm] is taken to be the root of the sum of squares.
    Not modelled: [callback], printing, and the numpy scalar types of the results. *)

From Coq Require Import List ZArith Bool String.
From Verif Require Import Py Num Diagram Topology Equilibrium.
Import ListNotations.
Open Scope Z_scope.

(** The containers read by the iterations (force_numpy.py:52-85) *)
Record np_env (T : Type) : Type := mkNp {
  np_forces : dict ekey T;                   (* edge_forces *)
  np_lengths : dict ekey T;                  (* edge_lengths *)
  np_loads : dict Z (vec T);                 (* node_loads *)
  np_direct : dict Z (list ekey);            (* node_direct *)
  np_indirect : dict Z (list ekey);          (* node_indirect *)
  np_planes : dict ekey (vec T * vec T)      (* edge_planes *)
}.
Arguments mkNp {T} _ _ _ _ _ _.
Arguments np_forces {T} _.
Arguments np_lengths {T} _.
Arguments np_loads {T} _.
Arguments np_direct {T} _.
Arguments np_indirect {T} _.
Arguments np_planes {T} _.

Section EquilibriumNp.
  Context {T : Type} `{NumOps T}.

  (** A dictionary comprehension over queries: [{x: f(x) for x in l}] *)
  Definition dict_of {K V} `{Eqb K} (f : K -> res V) (l : list K) : res (dict K V) :=
    fold_res (fun m x => let* v := f x in Ok (dset m x v)) l [].

  (** The planes of the trail edges that have one (force_numpy.py:70-77) *)
  Definition planes_of (d : diagram T) : res (dict ekey (vec T * vec T)) :=
    fold_res (fun m e =>
      let* p := edge_plane d e in
      match p with None => Ok m | Some p => Ok (dset m e p) end) (trail_edges d) [].

  (** The containers that are only read (force_numpy.py:56-77) *)
  Definition np_containers (d : diagram T) : res (np_env T) :=
    let* fs := dict_of (edge_force d) (edges d) in
    let* ls := dict_of (edge_length_2 d) (edges d) in
    let* qs := dict_of (node_load d) (nodes d) in
    let* ds := dict_of (connected_direct_deviation_edges d) (nodes d) in
    let* is := dict_of (connected_indirect_deviation_edges d) (nodes d) in
    let* ps := planes_of d in
    Ok (mkNp fs ls qs ds is ps).

  (** normalize_vector_numpy (force_numpy.py:419-430): no test for zero length *)
  Definition normalize_vector_numpy (v : vec T) : vec T :=
    let l := length_vector v in V3 (ndiv (vx v) l) (ndiv (vy v) l) (ndiv (vz v) l).

  (** deviation_edges_resultant_vector (force_numpy.py:266-298) with
      incoming_edge_vector (384-391) and vector_two_nodes (394-416) *)
  Definition resultant_numpy (env : np_env T) (node : Z) (xyz : dict Z (vec T)) (es : list ekey) : res (vec T) :=
    fold_res (fun r (e : ekey) =>
      let* force := dgetr (np_forces env) e in
      let other := if negb (Z.eqb (fst e) node) then fst e else snd e in
      let* a := dgetr xyz other in
      let* b := dgetr xyz node in
      Ok (add_vectors r (scale_vector (normalize_vector_numpy (subtract_vectors a b)) force))) es vzero.

  (** node_equilibrium and trail_vector_out (force_numpy.py:244-263, 344-364) *)
  Definition node_equilibrium_numpy (t_vec q rd ri : vec T) : vec T :=
    scale_vector (add_vectors (add_vectors (add_vectors (scale_vector t_vec nminus1) q) rd) ri) nminus1.

  (** trail_length_from_plane_intersection_numpy (force_numpy.py:433-467) *)
  Definition trail_length_numpy (point vector : vec T) (plane : vec T * vec T) (tol : T) : option T :=
    let '(origin, normal) := plane in
    let cos_nv := dot_vectors normal (normalize_vector_numpy vector) in
    if nltb (nabs cos_nv) tol then None
    else Some (ndiv (dot_vectors normal (subtract_vectors origin point)) cos_nv).

  (** np.isnan *)
  Definition nisnan (x : T) : bool := negb (neqb x x).

  (** The body of the loop over trails (force_numpy.py:94-182).  [edge_keys] is the
      set of the edges, so the key of the edge is looked up as in force.py. *)
  Definition visit_numpy (d : diagram T) (env : np_env T) (ts : dict Z (dict Z Z)) (indirect : bool)
             (k : Z) (st : eqstate T) (key : Z) : res (eqstate T) :=
    let* m := dgetr ts key in
    match dget m k with
    | None => Ok st
    | Some node =>
        let* pos := dgetr (s_xyz st) node in
        let* rin := dgetr (s_res st) node in
        let* q := dgetr (np_loads env) node in
        let* de := dgetr (np_direct env) node in
        let* rd := resultant_numpy env node (s_xyz st) de in
        let* ri := if indirect then
                     let* ie := dgetr (np_indirect env) node in
                     resultant_numpy env node (s_xyz st) ie
                   else Ok vzero in
        let rvec := node_equilibrium_numpy rin q rd ri in
        let* sup := is_node_support d node in
        if sup then
          Ok (mkEq (s_xyz st) (s_res st) (dset (s_reac st) node rvec) (s_tforce st) (s_tdir st))
        else
          let* next := dgetr m (k + 1) in
          let edge := trail_edge_key d node next in
          let* len := dgetr (np_lengths env) edge in
          let length := match dget (np_planes env) edge with
                        | None => len
                        | Some plane =>
                            match trail_length_numpy pos rvec plane neps6 with
                            | Some plength => if ntruthy plength then plength else len
                            | None => len
                            end
                        end in
          let tf := length_vector rvec in
          let unit := V3 (ndiv (vx rvec) tf) (ndiv (vy rvec) tf) (ndiv (vz rvec) tf) in
          let nrvec := if nisnan (length_vector unit) then rvec else unit in
          let next_pos := add_vectors pos (scale_vector nrvec length) in
          let trail_force := if nltb (nmul tf length) n0 then nmul tf nminus1 else tf in
          Ok (mkEq (dset (s_xyz st) next next_pos)
                   (dset (s_res st) next rvec)
                   (s_reac st)
                   (dset (s_tforce st) edge trail_force)
                   (dset (s_tdir st) edge nrvec))
    end.

  (** One iteration (force_numpy.py:92-182) *)
  Definition sweep_numpy (d : diagram T) (env : np_env T) (ts : dict Z (dict Z Z)) (indirect : bool)
             (st : eqstate T) : res (eqstate T) :=
    let* n := number_of_sequences d in
    fold_res (fun st k => fold_res (visit_numpy d env ts indirect k) (dkeys (trails d)) st) (zrange n) st.

  (** The residual distance (force_numpy.py:188-193): the root of the sum of the
      squares of all coordinates of the displacements *)
  Definition residual_numpy (last now : dict Z (vec T)) : res T :=
    let* s := fold_res (fun acc (kp : Z * vec T) =>
      let* lp := dgetr last (fst kp) in
      Ok (nadd acc (length_vector_sqrd (subtract_vectors lp (snd kp))))) now n0 in
    Ok (nsqrt s).

  (** The loop over iterations (force_numpy.py:87-196), as [iterate] *)
  Fixpoint iterate_numpy (d : diagram T) (env : np_env T) (ts : dict Z (dict Z Z)) (eta : T)
           (n t : nat) (distance : option T) (st : eqstate T) : res (eqstate T * option nat * option T) :=
    match n with
    | O => Ok (st, match t with O => None | S t => Some t end, distance)
    | S n =>
        let* st' := sweep_numpy d env ts (negb (Nat.eqb t 0)) st in
        if Nat.eqb t 0 then iterate_numpy d env ts eta n (S t) distance st'
        else
          let* dist := residual_numpy (s_xyz st) (s_xyz st') in
          if nltb dist eta then Ok (st', Some t, Some dist)
          else iterate_numpy d env ts eta n (S t) (Some dist) st'
    end.

  (** equilibrium_state_numpy (force_numpy.py:45-215) *)
  Definition equilibrium_state_numpy (d : diagram T) (tmax : Z) (eta : T) (verbose : bool) : res (eqstate T) :=
    if negb (Z.ltb 0 (number_of_trails d)) then Err (AssertionError "No trails in the diagram!")
    else
      let* ts := trails_sequences d in
      let* env := np_containers d in
      let* r := iterate_numpy d env ts eta (Z.to_nat tmax) 0 None (init_state d) in
      let '(st, t, distance) := r in
      match t with
      | None => Err UnboundLocalError
      | Some t =>
          if negb (Nat.eqb t 0) then
            match distance with
            | None => Err UnboundLocalError
            | Some dist => if nltb eta dist then Err (ValueError "Over iters") else Ok st
            end
          else if verbose && match distance with None => true | Some _ => false end
               then Err UnboundLocalError
               else Ok st
      end.

  (** form_update (force_numpy.py:218-241): lengths are measured on the containers *)
  Definition form_update_numpy (st : eqstate T) : eff (diagram T) unit :=
    do* _ := eloop (fun _ (kv : Z * vec T) => node_set (fst kv) (fun a => set_xyz a (snd kv))) (s_xyz st) tt in
    do* _ := eloop (fun _ (ev : ekey * T) => edge_set (fst ev) (fun a => set_force a (snd ev))) (s_tforce st) tt in
    do* _ := eloop (fun _ (kv : Z * vec T) => node_set (fst kv) (fun a => set_reac a (snd kv))) (s_reac st) tt in
    do* es := eget (fun d => Ok (edges d)) in
    eloop (fun _ (e : ekey) =>
      do* pu := eget (fun _ => dgetr (s_xyz st) (fst e)) in
      do* pv := eget (fun _ => dgetr (s_xyz st) (snd e)) in
      let length := length_vector (subtract_vectors pu pv) in
      do* force := eget (fun d => edge_force d e) in
      edge_set e (fun a => set_length a (ncopysign length force))) es tt.

  (** static_equilibrium_numpy (force_numpy.py:9-42) *)
  Definition static_equilibrium_numpy (d : diagram T) (tmax : Z) (eta : T) (verbose : bool) : res (diagram T) :=
    let* st := equilibrium_state_numpy d tmax eta verbose in
    match form_update_numpy st (form_of_topology d) with
    | (form, Ok tt) => Ok form
    | (_, Err e) => Err e
    end.
End EquilibriumNp.
