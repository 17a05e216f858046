(** * Properties of what form finding says while it runs (C89, C90)

    Generated by tools/gen_props.py from the lemmas of MessageThms.v and WitnessMessages.v.
    The vocabulary is in SpecMessages.v; form finding with its messages is in Messages.v. *)

From Coq Require Import String List ZArith Bool Lia Permutation Floats Reals Lra.
From Verif Require Import Py PyFacts Num Diagram DiagramFacts Topology Equilibrium Messages History Fixtures SpecDiagram SpecTopology SpecEquilibrium
  SpecMessages RVec SpecStatics MessageThms Witness WitnessEq WitnessMessages.
Import ListNotations.
Open Scope Z_scope.

Section Generic.
  Context {T : Type} `{NumOps T}.
  Implicit Types (d : diagram T).

  (** ** Saying makes no difference *)

  (** C89: what is printed and the callback make no difference to the form, or to the
      exception raised. *)
  Theorem C89_same : forall d kmax tmax eta verbose callback,
    outcome (static_equilibrium_out d kmax tmax eta verbose callback) = static_equilibrium d kmax tmax eta verbose.
  Proof. exact c89_same. Qed.
  (** C89: warnings name trail edges that have a plane. *)
  Theorem C89_only : forall d kmax tmax eta verbose callback x e, reachable d -> ready d ->
    In x (said (static_equilibrium_out d kmax tmax eta verbose callback)) -> warns x e ->
    In e (trail_edges d) /\ exists plane, edge_plane d e = Ok (Some plane).
  Proof. exact c89_only. Qed.

  (** ** Calls of the callback *)

  (** C90: the callback is called once for every trail edge, in each of the [p] iterations that are made;
      without a callback nothing is called.  The message at the end gives [p - 1]. *)
  Theorem C90_calls_partial : forall d tmax eta verbose callback, reachable d -> ready d -> 1 <= tmax ->
    let run := static_equilibrium_out d None tmax eta verbose callback in
    exists p, 1 <= p <= tmax /\ (2 <= tmax -> 2 <= p)
      /\ run = static_equilibrium_out d None p eta verbose callback
      /\ Z.of_nat (calls (said run)) = (if callback then p * number_of_trail_edges d else 0)
      /\ forall t, In (Completed t) (said run) <-> verbose = true /\ (exists form, outcome run = Ok form) /\ Z.of_nat t = p - 1.
  Proof. exact c90_calls_partial. Qed.
End Generic.
(** Two passes, four calls; and the message tells of one. *)
Theorem C90_refuted : exists d : diagram float, reachable d
  /\ said (static_equilibrium_out d None 2 0x1.4f8b588e368f1p-17%float true true)
     = [Called; Called; Called; Called; Completed 1].
Proof. exact c90_refuted. Qed.

(** ** What warnings mean *)

(** C89: what a form is if form finding is silent: the force of every trail edge that carries one has the sign
  of the length it was given, and the trail edges with a plane end on it. *)
Theorem C89_silence : forall d tmax eta verbose callback form n m e l, reachable d -> ready d ->
  let run := static_equilibrium_out d None tmax eta verbose callback in
  outcome run = Ok form -> follows d n m -> edge_between d n m e -> edge_length_2 d e = Ok l -> (l <> 0)%R ->
  (~ In (Flipped e) (said run) -> force form e <> 0%R -> (force form e < 0 <-> l < 0)%R)
  /\ forall o nrm, edge_plane d e = Ok (Some (o, nrm)) -> ~ In (NoIntersection e) (said run) -> on_plane (position form m) o nrm.
Proof. exact c89_silence. Qed.
(** C89: without indirect deviation edges warnings are given exactly for the trail edges whose force has not the
  sign of the length they were given, and for those that are parallel to their plane, up to 1e-6, or start on it. *)
Theorem C89_told_partial : forall d tmax eta verbose callback form n m e l, reachable d -> ready d -> direct_only d ->
  let run := static_equilibrium_out d None tmax eta verbose callback in
  outcome run = Ok form -> follows d n m -> edge_between d n m e -> edge_length_2 d e = Ok l -> (l <> 0)%R ->
  (In (Flipped e) (said run) <-> (force form e * l < 0)%R)
  /\ forall o nrm, edge_plane d e = Ok (Some (o, nrm)) -> force form e <> 0%R ->
     let u := direction (position form m -v position form n) in
     (In (NoIntersection e) (said run) <-> (Rabs (dot nrm u) < / 1000000)%R \/ on_plane (position form n) o nrm).
Proof. exact c89_told_partial. Qed.
(** The warning of the first pass is wrong about the form. *)
Theorem C89_refuted : exists (d form : diagram float) e l f, reachable d
  /\ outcome (static_equilibrium_out d None 100 0x1.4f8b588e368f1p-17%float false false) = Ok form
  /\ In (Flipped e) (said (static_equilibrium_out d None 100 0x1.4f8b588e368f1p-17%float false false))
  /\ edge_length_2 d e = Ok l /\ edge_force form e = Ok f
  /\ PrimFloat.ltb l 0 = true /\ PrimFloat.ltb f 0 = true.
Proof. exact c89_refuted. Qed.
Print Assumptions C89_same.
Print Assumptions C89_only.
Print Assumptions C90_calls_partial.
Print Assumptions C90_refuted.
Print Assumptions C89_silence.
Print Assumptions C89_told_partial.
Print Assumptions C89_refuted.
