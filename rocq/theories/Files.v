(** * Diagrams in files

    Model of what becomes of a diagram that is written with [to_json] and read with
    [from_json] (ghpython/components/CompasCem_JSONExportDiagram/code.py:11-16,
    CompasCem_JSONImportForm/code.py:12-18, CompasCem_JSONImportTopology/code.py:12-18,
    examples/03_bridge_2d.py:36), and of form finding on the diagram that was read.

    [to_json] and [from_json] are inherited from compas (external to /repo).  What they
    write is modelled after the file examples/03_bridge_2d.json: the node keys of the
    containers node, edge and adjacency are written with [repr] and read with
    [literal_eval]; the dictionary [attributes] is written and read as it is.  The text of
    a file is not modelled: reading a text back gives the tree that was written, where
    tuples have become lists and the integer keys of dictionaries strings (Python's json).
    The texts of a geometric key and of a precision are tokens. *)

From Coq Require Import String List ZArith Bool.
From Verif Require Import Py Num Diagram Topology History Equilibrium Optimizer Constraints Serialize.
Import ListNotations.
Open Scope Z_scope.

(** ** Trees *)

(** Keys of dictionaries *)
Inductive pkey : Type :=
| KInt (z : Z)
| KStr (s : string)
| KGeo (g : gkey_t).     (* the text of a geometric key *)

Definition pkey_eqb (a b : pkey) : bool :=
  match a, b with
  | KInt x, KInt y => Z.eqb x y
  | KStr x, KStr y => String.eqb x y
  | KGeo x, KGeo y => eqb x y
  | _, _ => false
  end.

#[global] Program Instance Eqb_pkey : Eqb pkey := {| eqb := pkey_eqb |}.
Next Obligation.
  destruct x, y; cbn [pkey_eqb]; try (constructor; discriminate).
  - destruct (Z.eqb_spec z z0); constructor; congruence.
  - destruct (String.eqb_spec s s0); constructor; congruence.
  - destruct (eqb_spec g g0); constructor; congruence.
Defined.

(** Values *)
Inductive pytree (T : Type) : Type :=
| PNone
| PInt (z : Z)
| PNum (x : T)
| PStr (s : string)
| PTol (n : nat)         (* the text of a precision, "3f" *)
| PList (l : list (pytree T))
| PTuple (l : list (pytree T))
| PDict (l : list (pkey * pytree T)).
Arguments PNone {T}.
Arguments PInt {T} _.
Arguments PNum {T} _.
Arguments PStr {T} _.
Arguments PTol {T} _.
Arguments PList {T} _.
Arguments PTuple {T} _.
Arguments PDict {T} _.

(** The key of a dictionary in a file: json.dumps writes [repr(key)] for an integer *)
Definition json_key (k : pkey) : pkey :=
  match k with KInt z => KStr (repr_int z) | k => k end.

(** [json.loads(json.dumps(v))] *)
Fixpoint json {T} (v : pytree T) : pytree T :=
  match v with
  | PList l => PList (map json l)
  | PTuple l => PList (map json l)
  | PDict l => PDict (map (fun kv => (json_key (fst kv), json (snd kv))) l)
  | PNone => PNone
  | PInt z => PInt z
  | PNum x => PNum x
  | PStr s => PStr s
  | PTol n => PTol n
  end.

(** ** Objects *)

(** A diagram as the object in memory, where the keys of the dictionaries [_trails] and
    [_auxiliary_trails] in [attributes] (topology/topology.py:41-42) may be of any type.
    [o_base] holds everything else; its own trails are not used. *)
Record object (T : Type) : Type := mkObject {
  o_base : diagram T;
  o_trails : dict pkey (list Z);
  o_aux : dict pkey ekey
}.
Arguments mkObject {T} _ _ _.
Arguments o_base {T} _.
Arguments o_trails {T} _.
Arguments o_aux {T} _.

Section Files.
  Context {T : Type} `{NumOps T}.

  Definition base_of (d : diagram T) : diagram T := with_aux (with_trails d []) [].
  Definition int_keys {V} (m : dict Z V) : dict pkey V := map (fun kv => (KInt (fst kv), snd kv)) m.

  (** The object of a diagram built in memory: the keys are integers
      (topology/topology.py:381, :401) *)
  Definition in_memory (d : diagram T) : object T :=
    mkObject (base_of d) (int_keys (d_trails d)) (int_keys (d_aux d)).

  (** ** Writing *)

  Definition vec_data (v : vec T) : pytree T := PList [PNum (vx v); PNum (vy v); PNum (vz v)].

  (** Node attributes (diagram.py:24-34).  Entries that were never set are written with
      their default value. *)
  Definition node_data (a : node_attr T) : pytree T :=
    PDict [(KStr "x", PNum (vx (na_xyz a))); (KStr "y", PNum (vy (na_xyz a))); (KStr "z", PNum (vz (na_xyz a)));
           (KStr "qx", PNum (vx (na_load a))); (KStr "qy", PNum (vy (na_load a))); (KStr "qz", PNum (vz (na_load a)));
           (KStr "rx", PNum (vx (na_reac a))); (KStr "ry", PNum (vy (na_reac a))); (KStr "rz", PNum (vz (na_reac a)));
           (KStr "_k", match na_k a with Some k => PInt k | None => PNone end);
           (KStr "type", match na_type a with
                         | Some TSupport => PStr "support"
                         | Some TOrigin => PStr "_origin"
                         | None => PNone
                         end)].

  (** Edge attributes (diagram.py:36-38, elements/trail.py:19).  Simplification: a plane
      is a pair of coordinate lists. *)
  Definition edge_data (a : edge_attr T) : pytree T :=
    PDict [(KStr "type", match ea_type a with
                         | Some ETrail => PStr "trail"
                         | Some EDeviation => PStr "deviation"
                         | None => PNone
                         end);
           (KStr "length", PNum (ea_length a)); (KStr "force", PNum (ea_force a));
           (KStr "plane", match ea_plane a with
                          | Some (point, normal) => PTuple [vec_data point; vec_data normal]
                          | None => PNone
                          end)].

  Definition repr_keys {A} (f : A -> pytree T) (m : dict Z A) : pytree T :=
    PDict (map (fun kv => (KStr (repr_int (fst kv)), f (snd kv))) m).

  (** [diagram.data] (compas; examples/03_bridge_2d.json).  A topology diagram has four
      more attributes than a form diagram (topology/topology.py:41-44, form.py:42-45). *)
  Definition object_data (topology : bool) (o : object T) : pytree T :=
    let d := o_base o in
    PDict [(KStr "node", repr_keys node_data (d_node d));
           (KStr "edge", repr_keys (repr_keys edge_data) (d_edge d));
           (KStr "adjacency", repr_keys (fun l => PDict (map (fun v => (KStr (repr_int v), PNone)) l)) (d_adj d));
           (KStr "max_int_key", PInt (d_max d));
           (KStr "attributes", PDict
             ([(KStr "tol", PTol (d_tol d));
               (KStr "gkey_node", PDict (map (fun gn => (KGeo (fst gn), PInt (snd gn))) (d_gkey d)))]
              ++ (if topology then
                    [(KStr "_trails", PDict (map (fun kt => (fst kt, PTuple (map PInt (snd kt)))) (o_trails o)));
                     (KStr "_auxiliary_trails", PDict (map (fun ke => (fst ke, PTuple [PInt (fst (snd ke)); PInt (snd (snd ke))])) (o_aux o)));
                     (KStr "_aux_length", PNum (d_aux_length d));
                     (KStr "_aux_vector", vec_data (d_aux_vector d))]
                  else [])))].

  (** ** Reading *)

  (** The entries of a dictionary, of a list or tuple, and the values of the other types.
      Simplification: a value of another type raises when it is read, not when it is used. *)
  Definition items_of (v : pytree T) : res (list (pkey * pytree T)) :=
    match v with PDict l => Ok l | _ => Err TypeError end.
  Definition list_of (v : pytree T) : res (list (pytree T)) :=
    match v with PList l | PTuple l => Ok l | _ => Err TypeError end.
  Definition int_of (v : pytree T) : res Z :=
    match v with PInt z => Ok z | _ => Err TypeError end.
  Definition num_of (v : pytree T) : res T :=
    match v with PNum x => Ok x | _ => Err TypeError end.
  Definition tol_of (v : pytree T) : res nat :=
    match v with PTol n => Ok n | _ => Err TypeError end.

  (** [v[name]], and [v[name]] where a missing entry stands for a default value *)
  Definition field (v : pytree T) (name : string) : res (pytree T) :=
    let* l := items_of v in dgetr l (KStr name).
  Definition field_or (dflt : pytree T) (v : pytree T) (name : string) : res (pytree T) :=
    let* l := items_of v in
    Ok (match dget l (KStr name) with Some x => x | None => dflt end).

  Definition vec_of (v : pytree T) : res (vec T) :=
    let* l := list_of v in
    match l with
    | [a; b; c] => let* x := num_of a in let* y := num_of b in let* z := num_of c in Ok (V3 x y z)
    | _ => Err TypeError
    end.

  Definition three (v : pytree T) (a b c : string) : res (vec T) :=
    let* x := let* w := field_or (PNum n0) v a in num_of w in
    let* y := let* w := field_or (PNum n0) v b in num_of w in
    let* z := let* w := field_or (PNum n0) v c in num_of w in
    Ok (V3 x y z).

  Definition node_of (v : pytree T) : res (node_attr T) :=
    let* xyz := three v "x" "y" "z" in
    let* load := three v "qx" "qy" "qz" in
    let* reac := three v "rx" "ry" "rz" in
    let* wk := field_or PNone v "_k" in
    let* k := match wk with PNone => Ok None | PInt z => Ok (Some z) | _ => Err TypeError end in
    let* wt := field_or PNone v "type" in
    let* t := match wt with
              | PNone => Ok None
              | PStr s => if String.eqb s "support" then Ok (Some TSupport)
                          else if String.eqb s "_origin" then Ok (Some TOrigin) else Err TypeError
              | _ => Err TypeError
              end in
    Ok (mkNode xyz load reac k t).

  Definition edge_of (v : pytree T) : res (edge_attr T) :=
    let* wt := field_or PNone v "type" in
    let* t := match wt with
              | PNone => Ok None
              | PStr s => if String.eqb s "trail" then Ok (Some ETrail)
                          else if String.eqb s "deviation" then Ok (Some EDeviation) else Err TypeError
              | _ => Err TypeError
              end in
    let* len := let* w := field_or (PNum n0) v "length" in num_of w in
    let* force := let* w := field_or (PNum n0) v "force" in num_of w in
    let* wp := field_or PNone v "plane" in
    let* plane := match wp with
                  | PNone => Ok None
                  | wp =>
                      let* l := list_of wp in
                      match l with
                      | [p; n] => let* p := vec_of p in let* n := vec_of n in Ok (Some (p, n))
                      | _ => Err TypeError
                      end
                  end in
    Ok (mkEdge t len force plane).

  (** [literal_eval(key)] of the text of a node key *)
  Definition node_key_of (k : pkey) : res Z :=
    match k with
    | KStr s =>
        let* v := literal_eval (T := T) (VStr s) in
        match v with VInt z => Ok z | _ => Err TypeError end
    | _ => Err (ValueError "malformed node or string")
    end.

  (** [{literal_eval(key): read(value) for key, value in v.items()}]; the keys of a
      dictionary are different *)
  Definition read_keys {A} (read : pytree T -> res A) (v : pytree T) : res (dict Z A) :=
    let* l := items_of v in
    map_res (fun kv => let* k := node_key_of (fst kv) in let* a := read (snd kv) in Ok (k, a)) l.

  Definition adjacency_of (v : pytree T) : res (list Z) :=
    let* l := items_of v in map_res (fun kv => node_key_of (fst kv)) l.

  Definition geo_of (k : pkey) : res gkey_t :=
    match k with KGeo g => Ok g | _ => Err TypeError end.

  Definition trail_of (v : pytree T) : res (list Z) :=
    let* l := list_of v in map_res int_of l.

  Definition pair_of (v : pytree T) : res ekey :=
    let* l := list_of v in
    match l with
    | [a; b] => let* u := int_of a in let* v := int_of b in Ok (u, v)
    | _ => Err TypeError
    end.

  (** [diagram.data = data] on a new diagram (compas); the attributes that the file does
      not have keep the values of a new topology diagram (topology/topology.py:41-44).
      The keys of [_trails] and [_auxiliary_trails] stay what they are in the file. *)
  Definition object_of (v : pytree T) : res (object T) :=
    let* node := let* w := field v "node" in read_keys node_of w in
    let* edge := let* w := field v "edge" in read_keys (read_keys edge_of) w in
    let* adj := let* w := field v "adjacency" in read_keys adjacency_of w in
    let* mx := let* w := field v "max_int_key" in int_of w in
    let* at_ := field v "attributes" in
    let* tol := let* w := field at_ "tol" in tol_of w in
    let* gkey := let* w := field at_ "gkey_node" in
                 let* l := items_of w in
                 map_res (fun kv => let* g := geo_of (fst kv) in let* n := int_of (snd kv) in Ok (g, n)) l in
    let* trs := let* w := field_or (PDict []) at_ "_trails" in
                let* l := items_of w in
                map_res (fun kv => let* t := trail_of (snd kv) in Ok (fst kv, t)) l in
    let* aux := let* w := field_or (PDict []) at_ "_auxiliary_trails" in
                let* l := items_of w in
                map_res (fun kv => let* e := pair_of (snd kv) in Ok (fst kv, e)) l in
    let* len := let* w := field_or (PNum (nopp n1)) at_ "_aux_length" in num_of w in
    let* dir := let* w := field_or (PList [PNum n1; PNum n1; PNum n1]) at_ "_aux_vector" in vec_of w in
    Ok (mkObject (mkDiagram node edge adj mx gkey tol [] [] len dir) trs aux).

  (** [topology.to_json(path); TopologyDiagram.from_json(path)] and
      [form.to_json(path); FormDiagram.from_json(path)] *)
  Definition topology_file (d : diagram T) : pytree T := json (object_data true (in_memory d)).
  Definition form_file (d : diagram T) : pytree T := json (object_data false (in_memory d)).
  Definition from_json (file : pytree T) : res (object T) := object_of file.

  (** ** Trails of an object *)

  (** trail(key) with an integer (topology/topology.py:205-222) *)
  Definition o_trail (o : object T) (key : Z) : res (list Z) := dgetr (o_trails o) (KInt key).

  (** trails() (topology/topology.py:224-247) and auxiliary_trails() (:249-271), without keys *)
  Definition o_all_trails (o : object T) : list (list Z) := dvalues (o_trails o).
  Definition o_auxiliary_trails (o : object T) : list ekey := dvalues (o_aux o).

  (** is_auxiliary_trail_edge (topology/topology.py:726-743), which makes tuples of lists *)
  Definition o_is_auxiliary_trail_edge (o : object T) (e : ekey) : bool := memb e (o_auxiliary_trails o).

  (** A call that reads and writes neither [_trails] nor [_auxiliary_trails] *)
  Definition on_base {A} (m : eff (diagram T) A) : eff (object T) A :=
    fun o => let '(b, r) := m (o_base o) in (mkObject b (o_trails o) (o_aux o), r).

  (** has_trails (topology/topology.py:273-283) *)
  Definition o_has_trails (o : object T) : bool := Z.ltb 0 (Z.of_nat (List.length (o_trails o))).

  (** shift_trail (topology/topology.py:285-308) *)
  Definition o_shift_trail (key sequence : Z) : eff (object T) unit :=
    do* origin := on_base (eget (fun d => is_node_origin d key)) in
    if negb origin then eraise (AssertionError "That is not an origin node!")
    else
      do* has := eget (fun o => Ok (o_has_trails o)) in
      if negb has then eraise (ValueError "The diagram has no trails!")
      else
        do* tr := eget (fun o => o_trail o key) in
        on_base (set_sequences sequence tr).

  (** The checks at the end of build_trails (topology/topology.py:408-418); the keys
      stored are integers *)
  Definition o_build_finish (trs : dict Z (list Z)) (unassigned : list Z) : eff (object T) unit :=
    do* ne := on_base (eget (fun d => Ok (List.length (trail_edges d)))) in
    if Nat.eqb ne 0 then eraise (AssertionError "No trail edges defined!")
    else
      do* ns := on_base (eget (fun d => Ok (List.length (support_nodes d)))) in
      if Nat.eqb ns 0 then eraise (AssertionError "No supports assigned!")
      else
        if negb (Nat.eqb (List.length unassigned) 0)
        then eraise (AssertionError "Nodes haven't been assigned to a trail.")
        else fun o => (mkObject (o_base o) (int_keys trs) (o_aux o), Ok tt).

  (** build_trails (topology/topology.py:310-418) *)
  Definition o_build_trails_plain (ord : list Z -> list Z) : eff (object T) unit :=
    do* r := on_base (build_search ord) in
    o_build_finish (fst r) (snd r).

  Definition o_build_trails (ord : list Z -> list Z) (auxiliary : bool) : eff (object T) unit :=
    if auxiliary then
      do* r := on_base (build_search ord) in
      do* dir := on_base (eget (fun d => Ok (normalize_vector (d_aux_vector d)))) in
      do* aux := on_base (eloop (aux_body dir) (snd r) []) in
      do* _ := (fun o => (mkObject (o_base o) (o_trails o) (int_keys aux), Ok tt)) in
      o_build_trails_plain ord
    else o_build_trails_plain ord.

  (** The public calls of History.v on an object *)
  Definition o_call (c : op T) : eff (object T) unit :=
    match c with
    | OpBuildTrails ord aux => o_build_trails ord aux
    | OpShiftTrail k s => o_shift_trail k s
    | c => on_base (call c)
    end.

  (** A history of calls, and what each of them gave *)
  Fixpoint o_run (o : object T) (cs : list (op T)) : object T * list (res unit) :=
    match cs with
    | [] => (o, [])
    | c :: cs => let '(o1, r) := o_call c o in let '(o2, rs) := o_run o1 cs in (o2, r :: rs)
    end.

  (** ** Form finding on an object *)

  (** trail_sequences (topology/topology.py:912-930), trails_sequences (:932-949) *)
  Definition o_trails_sequences (o : object T) : res (dict pkey (dict Z Z)) :=
    fold_res (fun m kt =>
      let* tr := dgetr (o_trails o) (fst kt) in
      let* s := fold_res (fun m n => let* k := node_sequence (o_base o) n in Ok (dset m k n)) tr [] in
      Ok (dset m (fst kt) s)) (o_trails o) [].

  (** The body of the loop over trails (force.py:90-163).  The trail key is only used to
      look up the trail (force.py:92); the rest is [visit] for the trail found. *)
  Definition o_visit (d : diagram T) (ts : dict pkey (dict Z Z)) (kmax : option Z) (indirect : bool)
             (k : Z) (st : eqstate T) (key : pkey) : res (eqstate T) :=
    let* m := dgetr ts key in
    visit d [(0, m)] kmax indirect k st 0.

  (** One iteration over all sequences and trails (force.py:88-163) *)
  Definition o_sweep (o : object T) (ts : dict pkey (dict Z Z)) (kmax : option Z) (indirect : bool)
             (st : eqstate T) : res (eqstate T) :=
    let* n := number_of_sequences (o_base o) in
    fold_res (fun st k => fold_res (o_visit (o_base o) ts kmax indirect k) (dkeys (o_trails o)) st) (zrange n) st.

  (** The loop over iterations (force.py:83-177), as [iterate] in Equilibrium.v *)
  Fixpoint o_iterate (o : object T) (ts : dict pkey (dict Z Z)) (kmax : option Z) (eta : T)
           (n t : nat) (distance : option T) (st : eqstate T) : res (eqstate T * option nat * option T) :=
    match n with
    | O => Ok (st, match t with O => None | S t => Some t end, distance)
    | S n =>
        let* st' := o_sweep o ts kmax (negb (Nat.eqb t 0)) st in
        if Nat.eqb t 0 then o_iterate o ts kmax eta n (S t) distance st'
        else
          let* dist := residual_distance (s_xyz st) (s_xyz st') in
          if nltb dist eta then Ok (st', Some t, Some dist)
          else o_iterate o ts kmax eta n (S t) (Some dist) st'
    end.

  (** equilibrium_state (force.py:59-195) *)
  Definition o_equilibrium_state (o : object T) (kmax : option Z) (tmax : Z) (eta : T) (verbose : bool) : res (eqstate T) :=
    if negb (Z.ltb 0 (Z.of_nat (List.length (o_trails o)))) then Err (AssertionError "No trails in the diagram!")
    else
      let* ts := o_trails_sequences o in
      let* _ := sequence_last (o_base o) in
      if match kmax with Some km => Z.ltb km 0 | None => false end
      then Err (AssertionError "Kmax must be a non-negative number!")
      else
        let* r := o_iterate o ts kmax eta (Z.to_nat tmax) 0 None (init_state (o_base o)) in
        let '(st, t, distance) := r in
        match t with
        | None => Err UnboundLocalError
        | Some t =>
            if negb (Nat.eqb t 0) then
              match distance with
              | None => Err UnboundLocalError
              | Some dist =>
                  if nltb eta dist then Err (ValueError "Over iters") else Ok st
              end
            else if verbose && match distance with None => true | Some _ => false end
                 then Err UnboundLocalError
                 else Ok st
        end.

  (** static_equilibrium (force.py:18-56) *)
  Definition o_static_equilibrium (o : object T) (kmax : option Z) (tmax : Z) (eta : T) (verbose : bool) : res (diagram T) :=
    let* st := o_equilibrium_state o kmax tmax eta verbose in
    match form_update st (form_of_topology (o_base o)) with
    | (form, Ok tt) => Ok form
    | (_, Err e) => Err e
    end.
End Files.
