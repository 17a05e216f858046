(** * Properties of form finding with arrays (C41)

    Generated by tools/gen_props.py from the lemmas of NpThms.v and WitnessNp.v.
    The vocabulary is in SpecEquilibrium.v and SpecNumpy.v. *)

From Coq Require Import String List ZArith Bool Lia Permutation Floats Reals Lra.
From Verif Require Import Py PyFacts Num Diagram Topology Equilibrium EquilibriumNp History Fixtures SpecDiagram SpecTopology
  SpecEquilibrium SpecNumpy SpecStatics RVec FormFacts ReadyThms EqThms NpThms FloatThms Witness WitnessEq WitnessNp.
Import ListNotations.
Open Scope R_scope.

(** ** Over the real numbers *)

(** An iteration in which no division by zero occurs is the same in both programs. *)
Theorem C41_iteration : forall d ts t a b, reachable d -> ready d ->
  trails_sequences d = Ok ts -> after d ts None t = Ok a -> after d ts None (S t) = Ok b ->
  divides_safely d (negb (Nat.eqb t 0)) a b ->
  exists env, np_containers d = Ok env /\ sweep_numpy d env ts (negb (Nat.eqb t 0)) a = Ok b.
Proof. exact c41_iteration. Qed.
(** Whenever the reference program succeeds without dividing by zero, the other one
  succeeds too, after at most as many iterations, with the form of that iteration. *)
Theorem C41_numpy_succeeds : forall d tmax eta verbose form ts, reachable d -> ready d ->
  trails_sequences d = Ok ts -> runs_safely d ts (Z.to_nat tmax) ->
  static_equilibrium d None tmax eta verbose = Ok form ->
  exists form' t t' a a', static_equilibrium_numpy d tmax eta verbose = Ok form'
    /\ (1 <= t <= t')%nat /\ (t' <= Z.to_nat tmax)%nat
    /\ after d ts None t = Ok a /\ after d ts None t' = Ok a' /\ shows d a form' /\ shows d a' form.
Proof. exact c41_numpy_succeeds. Qed.
(** The last iteration of a successful run moves no node by more than the threshold. *)
Theorem C41_numpy_displacement : forall d tmax eta verbose form ts, reachable d -> ready d ->
  trails_sequences d = Ok ts -> runs_safely d ts (Z.to_nat tmax) -> (2 <= tmax)%Z ->
  static_equilibrium_numpy d tmax eta verbose = Ok form ->
  exists t a b, (1 <= t)%nat /\ (Z.of_nat t < tmax)%Z /\ after d ts None t = Ok a /\ after d ts None (S t) = Ok b
    /\ shows d b form
    /\ forall n p q, at_position a n p -> at_position b n q -> dist p q <= eta.
Proof. exact c41_numpy_displacement. Qed.
(** On a direct topology whose form (of a single iteration) has no coincident ends
  of a deviation edge and no trail edge without force, the two programs are the
  same function of the number of iterations and the threshold, errors included. *)
Theorem C41_direct : forall d eta0 form0, reachable d -> ready d -> direct_only d ->
  static_equilibrium d None 1 eta0 false = Ok form0 -> form_is_sound d form0 ->
  forall tmax eta verbose, static_equilibrium_numpy d tmax eta verbose = static_equilibrium d None tmax eta verbose.
Proof. exact c41_direct. Qed.
Print Assumptions C41_iteration.
Print Assumptions C41_numpy_succeeds.
Print Assumptions C41_numpy_displacement.
Print Assumptions C41_direct.

(** ** Without the hypotheses the programs differ *)

Open Scope Z_scope.
(** A deviation edge without length: the reference program ignores it, the other one
  returns not-a-number coordinates, without an error. *)
Theorem C41_zero_length_differs : exists (d form form' : diagram float) n p p', reachable d
  /\ static_equilibrium d None 100 0x1.4f8b588e368f1p-17%float false = Ok form
  /\ static_equilibrium_numpy d 100 0x1.4f8b588e368f1p-17%float false = Ok form'
  /\ node_coordinates form n = Ok p /\ finite p /\ node_coordinates form' n = Ok p' /\ has_nan p'.
Proof. exact c41_zero_length_differs. Qed.
(** The programs measure the displacement differently: on the braced tower, for one
  threshold one succeeds and the other reports that the iterations are exhausted;
  for another threshold both succeed with different positions. *)
Theorem C41_threshold_differs : exists d : diagram float, reachable d
  /\ (exists form, static_equilibrium_numpy d 2 3%float false = Ok form)
  /\ static_equilibrium d None 2 3%float false = Err (ValueError "Over iters")
  /\ exists form form' n, static_equilibrium d None 100 0x1.2p-1%float false = Ok form
       /\ static_equilibrium_numpy d 100 0x1.2p-1%float false = Ok form'
       /\ node_coordinates form' n <> node_coordinates form n.
Proof. exact c41_threshold_differs. Qed.
Print Assumptions C41_zero_length_differs.
Print Assumptions C41_threshold_differs.

(** ** The hypotheses can be met *)

(** The funicular is direct and its form is sound. *)
Example C41_direct_nonvacuous : exists form, reachable funicular /\ ready funicular /\ direct_only funicular
  /\ deviation_edges funicular = [(1, 2)]
  /\ static_equilibrium funicular None 1 (/ 1000000)%R false = Ok form /\ form_is_sound funicular form.
Proof.
  destruct funicular_sound as (form&E&S). exists form. split; [apply funicular_reachable|]. split; [apply funicular_ready|].
  split; [apply funicular_direct|]. split; [apply funicular_direct|]. split; [exact E|exact S].
Qed.

(** The two columns, with an indirect deviation edge, divide by zero in no iteration. *)
Example C41_nonvacuous : exists ts eta form form', reachable rcolumns /\ ready rcolumns
  /\ indirect_at rcolumns 1 = [(1, 3)]
  /\ trails_sequences rcolumns = Ok ts /\ runs_safely rcolumns ts (Z.to_nat 100)
  /\ static_equilibrium rcolumns None 100 eta false = Ok form
  /\ static_equilibrium_numpy rcolumns 100 eta false = Ok form'.
Proof.
  destruct rcolumns_forms as (eta&form&_&E).
  assert (Ex : exists ts, trails_sequences rcolumns = Ok ts) by (eexists; lazy; reflexivity). destruct Ex as [ts Ets].
  destruct (C41_numpy_succeeds rcolumns 100 eta false form ts rcolumns_reachable rcolumns_ready Ets
    (rcolumns_safe ts _ Ets) E) as (form'&_&_&_&_&E'&_).
  exists ts, eta, form, form'. split; [apply rcolumns_reachable|]. split; [apply rcolumns_ready|].
  split; [apply rcolumns_indirect|]. split; [exact Ets|]. split; [apply rcolumns_safe, Ets|]. split; [exact E|exact E'].
Qed.
