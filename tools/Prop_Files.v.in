(** * Properties of diagrams in files (C86)

    Generated by tools/gen_props.py from the lemmas of FilesThms.v and WitnessFiles.v.
    The vocabulary is in SpecFiles.v. *)

From Coq Require Import String List ZArith Bool Floats.
From Verif Require Import Py PyFacts Num Diagram Topology History Equilibrium Fixtures Witness Serialize Files SpecFiles FilesThms WitnessFiles.
Import ListNotations.
Open Scope Z_scope.

Section Generic.
  Context {T : Type} `{NumOps T}.

  @thm c86_topology_partial
  @thm c86_rebuilt_partial
  @thm c86_unbuilt
  @thm c86_form
  @thm c86_memory
  @thm c86_lost
End Generic.
@assume

@thm c86_refuted
@assume

(** ** The hypotheses can be met *)

(** The braced tower, without and with trails: both can be written and read, and the
    trails of the second can be built again after loads were added. *)
Example C86_nonvacuous : trails tower = [] /\ auxiliary_trails tower = []
  /\ List.length (trails tower_built) = 2%nat
  /\ Forall (fun c => ~ names_trail c) [load zf 2 1 0 0]
  /\ snd (call build (run tower_built [load zf 2 1 0 0])) = Ok tt
  /\ exists form, static_equilibrium tower_built None 100 0x1.4f8b588e368f1p-17%float false = Ok form.
Proof.
  split; [vm_compute; reflexivity|]. split; [vm_compute; reflexivity|]. split; [vm_compute; reflexivity|].
  split; [constructor; [intros []|constructor]|]. split; [vm_compute; reflexivity|].
  eexists. vm_compute. reflexivity.
Qed.
