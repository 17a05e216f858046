(** * Properties of serialization and of diagrams from meshes (C55, C56)

    Generated by tools/gen_props.py from the lemmas of SerializeThms.v and
    MeshThms.v.  The vocabulary is in SpecSerialize.v and SpecMesh.v. *)

From Coq Require Import String List ZArith Bool Lia Floats Reals Lra Permutation.
From Verif Require Import Py PyFacts Num Diagram Topology History SpecDiagram Constraints Optimizer Serialize SpecSerialize SerializeThms
  Mesh SpecMesh MeshThms.
Import ListNotations.
Open Scope Z_scope.

Section Generic.
  Context {T : Type} `{NumOps T}.

  (** ** Serialization *)

  @thm c55_key_text
  @thm c55_key_distinct
  @thm c55_parameter
  @thm c55_parameter_fields
  @thm c55_constraint_partial
  @thm c55_plain_target

  (** ** Meshes *)

  @thm c56_unique
  @thm c56_no_loss
  @thm c56_diagram
End Generic.
@assume

(** ** Numbers *)

@thm c55_goals
@thm c55_goal_fields
@thm c55_finite
@thm c55_refuted
@assume

(** ** The hypotheses can be met *)

(** A plane constraint at node -12 *)
Example C55_nonvacuous : let c := mkCobj CPlane (VInt (-12)) (GPlane (V3 0 0 1) (V3 0 0 1))%float 2%float in
  is_key (co_key c) /\ fits c /\ storable (co_target c)
  /\ exists d, constraint_data c = Ok d /\ dget d "key"%string = Some (VStr "-12").
Proof.
  split; [left; eexists; reflexivity|]. split; [split; discriminate|]. split; [exact I|].
  eexists. split; vm_compute; reflexivity.
Qed.

(** Two strips of two faces; the vertices 0, 3, 4 and 8 are supports.
<<
    0 - 1 - 2 - 3
    |   |   |
    4 - 5 - 6
    |   |   |
    8 - 9 - 10
>> *)
Definition strips : quadmesh float :=
  mkMesh [(0%Z, V3 0 2 0); (1%Z, V3 1 2 0); (2%Z, V3 2 2 0); (3%Z, V3 3 2 0); (4%Z, V3 0 1 0); (5%Z, V3 1 1 0); (6%Z, V3 2 1 0); (8%Z, V3 0 0 0); (9%Z, V3 1 0 0); (10%Z, V3 2 0 0)]%float
         [[0; 1; 2; 3]; [4; 5; 6]; [8; 9; 10]; [0; 4; 8]; [1; 5; 9]; [2; 6; 10]].

Example C56_nonvacuous : sound_mesh strips [0; 3; 4; 8].
Proof.
  split.
  - cbn. repeat constructor; cbn; intuition discriminate.
  - intros p I. split; [intros ->; cbn in I; intuition discriminate|].
    intros v J. cbn in I. decompose [or] I; try contradiction; subst p; cbn in *; intuition.
  - intros v I. cbn in *. intuition.
Qed.

(** Its diagram, with all trails in compression and the lengths of the mesh: the polyedge along the supports is left out. *)
Example C56_strips : exists d, from_dualquadmesh (fun l => l) strips [0; 3; 4; 8] None (-1)%float 2%float (-1)%float = Ok d
  /\ edges d = [(0, 1); (1, 2); (1, 5); (2, 6); (2, 3); (4, 5); (5, 9); (5, 6); (6, 10); (8, 9); (9, 10)]
  /\ edge_force d (1, 2) = Ok (-2)%float /\ edge_length_2 d (0, 1) = Ok (-1)%float.
Proof. eexists. split; [vm_compute; reflexivity|]. repeat split; vm_compute; reflexivity. Qed.
