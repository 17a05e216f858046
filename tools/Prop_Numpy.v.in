(** * Properties of form finding with arrays (C41)

    Generated by tools/gen_props.py from the lemmas of NpThms.v and WitnessNp.v.
    The vocabulary is in SpecEquilibrium.v and SpecNumpy.v. *)

From Coq Require Import String List ZArith Bool Lia Permutation Floats Reals Lra.
From Verif Require Import Py PyFacts Num Diagram Topology Equilibrium EquilibriumNp History Fixtures SpecDiagram SpecTopology
  SpecEquilibrium SpecNumpy SpecStatics RVec FormFacts ReadyThms EqThms NpThms FloatThms Witness WitnessEq WitnessNp.
Import ListNotations.
Open Scope R_scope.

(** ** Over the real numbers *)

@thm c41_iteration
@thm c41_numpy_succeeds
@thm c41_numpy_displacement
@thm c41_direct
@assume

(** ** Without the hypotheses the programs differ *)

Open Scope Z_scope.
@thm c41_zero_length_differs
@thm c41_threshold_differs
@assume

(** ** The hypotheses can be met *)

(** The funicular is direct and its form is sound. *)
Example C41_direct_nonvacuous : exists form, reachable funicular /\ ready funicular /\ direct_only funicular
  /\ deviation_edges funicular = [(1, 2)]
  /\ static_equilibrium funicular None 1 (/ 1000000)%R false = Ok form /\ form_is_sound funicular form.
Proof.
  destruct funicular_sound as (form&E&S). exists form. split; [apply funicular_reachable|]. split; [apply funicular_ready|].
  split; [apply funicular_direct|]. split; [apply funicular_direct|]. split; [exact E|exact S].
Qed.

(** The two columns, with an indirect deviation edge, divide by zero in no iteration. *)
Example C41_nonvacuous : exists ts eta form form', reachable rcolumns /\ ready rcolumns
  /\ indirect_at rcolumns 1 = [(1, 3)]
  /\ trails_sequences rcolumns = Ok ts /\ runs_safely rcolumns ts (Z.to_nat 100)
  /\ static_equilibrium rcolumns None 100 eta false = Ok form
  /\ static_equilibrium_numpy rcolumns 100 eta false = Ok form'.
Proof.
  destruct rcolumns_forms as (eta&form&_&E).
  assert (Ex : exists ts, trails_sequences rcolumns = Ok ts) by (eexists; lazy; reflexivity). destruct Ex as [ts Ets].
  destruct (C41_numpy_succeeds rcolumns 100 eta false form ts rcolumns_reachable rcolumns_ready Ets
    (rcolumns_safe ts _ Ets) E) as (form'&_&_&_&_&E'&_).
  exists ts, eta, form, form'. split; [apply rcolumns_reachable|]. split; [apply rcolumns_ready|].
  split; [apply rcolumns_indirect|]. split; [exact Ets|]. split; [apply rcolumns_safe, Ets|]. split; [exact E|exact E'].
Qed.
