(** * Properties of what form finding says while it runs (C89, C90)

    Generated by tools/gen_props.py from the lemmas of MessageThms.v and WitnessMessages.v.
    The vocabulary is in SpecMessages.v; form finding with its messages is in Messages.v. *)

From Coq Require Import String List ZArith Bool Lia Permutation Floats Reals Lra.
From Verif Require Import Py PyFacts Num Diagram DiagramFacts Topology Equilibrium Messages History Fixtures SpecDiagram SpecTopology SpecEquilibrium
  SpecMessages RVec SpecStatics MessageThms Witness WitnessEq WitnessMessages.
Import ListNotations.
Open Scope Z_scope.

Section Generic.
  Context {T : Type} `{NumOps T}.
  Implicit Types (d : diagram T).

  (** ** Saying makes no difference *)

  @thm c89_same
  @thm c89_only

  (** ** Calls of the callback *)

  @thm c90_calls_partial
End Generic.
@thm c90_refuted

(** ** What warnings mean *)

@thm c89_silence
@thm c89_told_partial
@thm c89_refuted
@assume
