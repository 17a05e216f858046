(** * Properties of serialization and of diagrams from meshes (C55, C56)

    Generated by tools/gen_props.py from the lemmas of SerializeThms.v and
    MeshThms.v.  The vocabulary is in SpecSerialize.v and SpecMesh.v. *)

From Coq Require Import String List ZArith Bool Lia Floats Reals Lra Permutation.
From Verif Require Import Py PyFacts Num Diagram Topology History SpecDiagram Constraints Optimizer Serialize SpecSerialize SerializeThms
  Mesh SpecMesh MeshThms.
Import ListNotations.
Open Scope Z_scope.

Section Generic.
  Context {T : Type} `{NumOps T}.

  (** ** Serialization *)

  (** The text of a key reads back as the key: every integer, and every tuple or list of integers of any length. *)
  Theorem C55_key_text : forall k : pyval T, (exists z, k = VInt z) \/ (exists l, k = VTuple l) \/ (exists l, k = VList l) ->
    exists s, py_repr k = Ok (VStr s) /\ literal_eval (VStr s) = Ok k.
  Proof. exact c55_key_text. Qed.
  (** Different keys have different texts. *)
  Theorem C55_key_distinct : forall k k' : pyval T, is_key k -> is_key k' -> py_repr k = py_repr k' -> k = k'.
  Proof. exact c55_key_distinct. Qed.
  (** Reading back the data of a parameter, directly or through JSON text, gives the same parameter: key, bounds and
      attribute, whatever the class, the integers in the key and the bounds. *)
  Theorem C55_parameter : forall p : parameter T, parameter_survives (parameter_object p).
  Proof. exact c55_parameter. Qed.
  (** What is read back is the parameter of the caller: its key, bounds and the attribute it drives. *)
  Theorem C55_parameter_fields : forall p : parameter T, exists d p',
    parameter_data (parameter_object p) = Ok d
    /\ parameter_from_data (po_class (parameter_object p)) d = Ok p'
    /\ po_key p' = match p_slot p with NodeSlot n _ => VInt n | EdgeSlot (u, v) _ => VTuple [u; v] end
    /\ po_low p' = match p_low p with Some x => VFloat x | None => VNone end
    /\ po_up p' = match p_up p with Some x => VFloat x | None => VNone end
    /\ po_attr p' = VStr (match p_slot p with
                          | NodeSlot _ AX => "x" | NodeSlot _ AY => "y" | NodeSlot _ AZ => "z"
                          | NodeSlot _ AQX => "qx" | NodeSlot _ AQY => "qy" | NodeSlot _ AQZ => "qz"
                          | EdgeSlot _ AForce => "force" | EdgeSlot _ ALength => "length" end).
  Proof. exact c55_parameter_fields. Qed.
  (** Missing: targets given as plain lists or tuples of coordinates, and targets that are infinite or NaN (the full
      statement is refuted below).  Reading back the data of a constraint whose target is a compas geometry object or a
      finite number gives the same constraint: key, target and weight. *)
  Theorem C55_constraint_partial : forall c : cobj T, is_key (co_key c) -> fits c -> storable (co_target c) -> constraint_survives c.
  Proof. exact c55_constraint_partial. Qed.
  (** A target of coordinates in a plain list or tuple can be used in an optimization but not written. *)
  Theorem C55_plain_target : forall cl k (points : list (vec T)) w, is_key k -> is_float_class cl = false ->
    constraint_data (mkCobj cl k (Plain points) w) = Err AttributeError.
  Proof. exact c55_plain_target. Qed.

  (** ** Meshes *)

(** Every polyedge is split in exactly one way. *)
  Theorem C56_unique : forall s p, p <> [] ->
  exists tr dv, splits s p tr dv /\ forall tr' dv', splits s p tr' dv' -> tr' = tr /\ dv' = dv.
  Proof. exact c56_unique. Qed.
(** Each edge of a polyedge becomes a trail or a deviation edge exactly once, unless both ends and the second vertex are
    supports: then the polyedge contributes no edge. *)
  Theorem C56_no_loss : forall s p tr dv, splits s p tr dv ->
  Permutation (tr ++ dv) (path_edges p)
  \/ (exists a x r, p = a :: x :: r /\ In a s /\ In x s /\ In (last p a) s /\ tr = [] /\ dv = []).
  Proof. exact c56_no_loss. Qed.
  (** from_dualquadmesh succeeds on a mesh with supports at its vertices, and makes a diagram with exactly the vertices, the
      supports, the trail edges and the deviation edges that the polyedges yield, with the requested lengths and forces. *)
  Theorem C56_diagram : forall ord (m : quadmesh T) s trail_length trail_state deviation_force deviation_state,
    (forall l, Permutation (ord l) l) -> sound_mesh m s ->
    exists d, from_dualquadmesh ord m s trail_length trail_state deviation_force deviation_state = Ok d /\ reachable d
      /\ nodes d = map fst (qm_vertices m)
      /\ (forall k p, In (k, p) (qm_vertices m) -> node_coordinates d k = Ok p)
      /\ (forall k, In k (nodes d) -> (is_node_support d k = Ok true <-> In k s))
      /\ (forall e, In e (edges d) <-> mesh_trail m s e \/ mesh_deviation m s e)
      /\ (forall u v, mesh_trail m s (u, v) -> is_trail_edge d (u, v) = Ok true
            /\ exists a b l, node_coordinates d u = Ok a /\ node_coordinates d v = Ok b
                 /\ edge_length_2 d (u, v) = Ok l /\ mesh_length trail_length trail_state a b l)
      /\ (forall e, mesh_deviation m s e -> ~ mesh_trail m s e ->
            is_deviation_edge d e = Ok true /\ edge_force d e = Ok (nmul deviation_state deviation_force)).
  Proof. exact c56_diagram. Qed.
End Generic.
Print Assumptions C55_key_text.
Print Assumptions C55_key_distinct.
Print Assumptions C55_parameter.
Print Assumptions C55_parameter_fields.
Print Assumptions C55_constraint_partial.
Print Assumptions C55_plain_target.
Print Assumptions C56_unique.
Print Assumptions C56_no_loss.
Print Assumptions C56_diagram.

(** ** Numbers *)

(** Every constraint of the exact model survives: real numbers are finite. *)
Theorem C55_goals : forall c : constraint R, constraint_survives (goal_object c).
Proof. exact c55_goals. Qed.
(** Read back, it is of the same class and has the node or edge, the target and the weight the user gave. *)
Theorem C55_goal_fields : forall c : constraint R, exists d c',
  constraint_data (goal_object c) = Ok d
  /\ constraint_from_data (co_class (goal_object c)) d = Ok c'
  /\ co_weight c' = c_weight c
  /\ (co_class c', co_key c', co_target c') = match c_goal c with
     | PointGoal n p => (CPoint, VInt n, GPoint p)
     | LineGoal n a b => (CLine, VInt n, GLine a b)
     | PlaneGoal n o m => (CPlane, VInt n, GPlane o m)
     | PolylineGoal n l => (CPolyline, VInt n, GPolyline l)
     | TrailForceGoal (u, v) f => (CTrailForce, VTuple [u; v], Number f)
     | ReactionGoal n r => (CReaction, VInt n, GVector r)
     | LengthGoal (u, v) l => (CLength, VTuple [u; v], Number l)
     | DirectionGoal (u, v) r => (CDirection, VTuple [u; v], GVector r)
     end.
Proof. exact c55_goal_fields. Qed.
(** A float is finite when it is neither an infinity nor NaN. *)
Theorem C55_finite : forall x : float, finite x = true <-> x <> infinity /\ x <> neg_infinity /\ x <> nan.
Proof. exact c55_finite. Qed.
(** The full statement of C55 is false: the data of a constraint whose target is a plain tuple cannot be written, and the
  data of one whose target is infinite is written but cannot be read. *)
Theorem C55_refuted :
  (exists c : cobj float, is_key (co_key c) /\ fits c /\ constraint_data c = Err AttributeError)
  /\ (exists (c : cobj float) d e, is_key (co_key c) /\ fits c /\ constraint_data c = Ok d /\ constraint_from_data (co_class c) d = Err e).
Proof. exact c55_refuted. Qed.
Print Assumptions C55_goals.
Print Assumptions C55_goal_fields.
Print Assumptions C55_finite.
Print Assumptions C55_refuted.

(** ** The hypotheses can be met *)

(** A plane constraint at node -12 *)
Example C55_nonvacuous : let c := mkCobj CPlane (VInt (-12)) (GPlane (V3 0 0 1) (V3 0 0 1))%float 2%float in
  is_key (co_key c) /\ fits c /\ storable (co_target c)
  /\ exists d, constraint_data c = Ok d /\ dget d "key"%string = Some (VStr "-12").
Proof.
  split; [left; eexists; reflexivity|]. split; [split; discriminate|]. split; [exact I|].
  eexists. split; vm_compute; reflexivity.
Qed.

(** Two strips of two faces; the vertices 0, 3, 4 and 8 are supports.
<<
    0 - 1 - 2 - 3
    |   |   |
    4 - 5 - 6
    |   |   |
    8 - 9 - 10
>> *)
Definition strips : quadmesh float :=
  mkMesh [(0%Z, V3 0 2 0); (1%Z, V3 1 2 0); (2%Z, V3 2 2 0); (3%Z, V3 3 2 0); (4%Z, V3 0 1 0); (5%Z, V3 1 1 0); (6%Z, V3 2 1 0); (8%Z, V3 0 0 0); (9%Z, V3 1 0 0); (10%Z, V3 2 0 0)]%float
         [[0; 1; 2; 3]; [4; 5; 6]; [8; 9; 10]; [0; 4; 8]; [1; 5; 9]; [2; 6; 10]].

Example C56_nonvacuous : sound_mesh strips [0; 3; 4; 8].
Proof.
  split.
  - cbn. repeat constructor; cbn; intuition discriminate.
  - intros p I. split; [intros ->; cbn in I; intuition discriminate|].
    intros v J. cbn in I. decompose [or] I; try contradiction; subst p; cbn in *; intuition.
  - intros v I. cbn in *. intuition.
Qed.

(** Its diagram, with all trails in compression and the lengths of the mesh: the polyedge along the supports is left out. *)
Example C56_strips : exists d, from_dualquadmesh (fun l => l) strips [0; 3; 4; 8] None (-1)%float 2%float (-1)%float = Ok d
  /\ edges d = [(0, 1); (1, 2); (1, 5); (2, 6); (2, 3); (4, 5); (5, 9); (5, 6); (6, 10); (8, 9); (9, 10)]
  /\ edge_force d (1, 2) = Ok (-2)%float /\ edge_length_2 d (0, 1) = Ok (-1)%float.
Proof. eexists. split; [vm_compute; reflexivity|]. repeat split; vm_compute; reflexivity. Qed.
