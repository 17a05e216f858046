(** * Properties of diagrams in files (C86)

    Generated by tools/gen_props.py from the lemmas of FilesThms.v and WitnessFiles.v.
    The vocabulary is in SpecFiles.v. *)

From Coq Require Import String List ZArith Bool Floats.
From Verif Require Import Py PyFacts Num Diagram Topology History Equilibrium Fixtures Witness Serialize Files SpecFiles FilesThms WitnessFiles.
Import ListNotations.
Open Scope Z_scope.

Section Generic.
  Context {T : Type} `{NumOps T}.

  (** Every topology diagram can be written and read.  What was read has the same contents,
      and it answers every later history of calls in the same way, with the same contents
      and the same forms afterwards, as long as no call asks for a trail by its key. *)
  Theorem C86_topology_partial : forall d, exists o,
    from_json (topology_file d) = Ok o
    /\ forall cs, Forall (fun c => ~ names_trail c) cs ->
         let '(o', rs) := o_run o cs in
         rs = answers d cs /\ same_contents o' (run d cs) /\ same_forms o' (run d cs).
  Proof. exact c86_topology_partial. Qed.
  (** Once the trails are built again, the trails too can be asked for by key, and calls
      that do so give the same answers. *)
  Theorem C86_rebuilt_partial : forall d o before ord aux after,
    from_json (topology_file d) = Ok o ->
    Forall (fun c => ~ names_trail c) before ->
    snd (call (OpBuildTrails ord aux) (run d before)) = Ok tt ->
    let cs := before ++ OpBuildTrails ord aux :: after in
    let '(o', rs) := o_run o cs in
    rs = answers d cs /\ same_contents o' (run d cs) /\ same_forms o' (run d cs) /\ same_trails o' (run d cs).
  Proof. exact c86_rebuilt_partial. Qed.
  (** A diagram without trails comes back as it was, and so does everything done with it
      later. *)
  Theorem C86_unbuilt : forall d,
    trails d = [] -> auxiliary_trails d = [] ->
    from_json (topology_file d) = Ok (in_memory d).
  Proof. exact c86_unbuilt. Qed.
  (** A form diagram comes back as it was. *)
  Theorem C86_form : forall d kmax tmax eta verbose form,
    static_equilibrium d kmax tmax eta verbose = Ok form ->
    from_json (form_file form) = Ok (in_memory form).
  Proof. exact c86_form. Qed.
  (** A diagram kept in memory: calls, forms and trails of the object are those of the
      diagram. *)
  Theorem C86_memory : forall d cs,
    let '(o, rs) := o_run (in_memory d) cs in
    rs = answers d cs /\ same_contents o (run d cs) /\ same_forms o (run d cs) /\ same_trails o (run d cs).
  Proof. exact c86_memory. Qed.
  (** What was read has no trail with an integer key. *)
  Theorem C86_lost : forall d o key,
    from_json (topology_file d) = Ok o -> o_trail o key = Err KeyError.
  Proof. exact c86_lost. Qed.
End Generic.
Print Assumptions C86_topology_partial.
Print Assumptions C86_rebuilt_partial.
Print Assumptions C86_unbuilt.
Print Assumptions C86_form.
Print Assumptions C86_memory.
Print Assumptions C86_lost.

(** A topology with trails is written and read: its trails cannot be asked for, and
  shifting one of them raises, although the diagram in memory does both. *)
Theorem C86_refuted : exists (d : diagram float) o key sequence,
  reachable d /\ from_json (topology_file d) = Ok o
  /\ (trail d key = Ok [2; 1; 0] /\ o_trail o key = Err KeyError)
  /\ (snd (call (OpShiftTrail key sequence) d) = Ok tt
      /\ snd (o_call (OpShiftTrail key sequence) o) = Err KeyError).
Proof. exact c86_refuted. Qed.
Print Assumptions C86_refuted.

(** ** The hypotheses can be met *)

(** The braced tower, without and with trails: both can be written and read, and the
    trails of the second can be built again after loads were added. *)
Example C86_nonvacuous : trails tower = [] /\ auxiliary_trails tower = []
  /\ List.length (trails tower_built) = 2%nat
  /\ Forall (fun c => ~ names_trail c) [load zf 2 1 0 0]
  /\ snd (call build (run tower_built [load zf 2 1 0 0])) = Ok tt
  /\ exists form, static_equilibrium tower_built None 100 0x1.4f8b588e368f1p-17%float false = Ok form.
Proof.
  split; [vm_compute; reflexivity|]. split; [vm_compute; reflexivity|]. split; [vm_compute; reflexivity|].
  split; [constructor; [intros []|constructor]|]. split; [vm_compute; reflexivity|].
  eexists. vm_compute. reflexivity.
Qed.
