(** * The form is the structure that the topology asks for (C94, C95)

    Generated by tools/gen_props.py from the lemmas of UniqueThms.v and RestThms.v.  The
    vocabulary is in SpecStatics.v, SpecEquilibrium.v and SpecUnique.v. *)

From Coq Require Import String List ZArith Bool Lia Reals Lra.
From Verif Require Import Py Num Diagram Topology Equilibrium History Fixtures SpecDiagram SpecTopology
  SpecEquilibrium SpecStatics RVec EqThms StaticsThms SpecUnique UniqueThms RestThms Witness WitnessEq WitnessUnique.
Import ListNotations.
Open Scope Z_scope.

Implicit Types (d g form : diagram R).

(** A direct topology asks for at most one structure whose trail edges carry forces. *)
Theorem C94_at_most_one : forall d g g', reachable d -> ready d -> direct_only d -> nonzero_trails d ->
  structure d g -> structure d g' -> carrying d g -> same_structure d g g'.
Proof. exact c94_at_most_one. Qed.
(** The form that form finding returns is such a structure. *)
Theorem C94_form : forall d tmax eta verbose form, reachable d -> ready d -> direct_only d -> nonzero_trails d ->
  static_equilibrium d None tmax eta verbose = Ok form -> structure d form.
Proof. exact c94_form. Qed.
(** Every structure whose trail edges carry forces and that is as the topology asks
  has the positions, forces and reactions of the form. *)
Theorem C94_only : forall d tmax eta verbose form g, reachable d -> ready d -> direct_only d -> nonzero_trails d ->
  static_equilibrium d None tmax eta verbose = Ok form ->
  structure d g -> carrying d g -> same_structure d g form.
Proof. exact c94_only. Qed.
(** A form in static equilibrium is final: with more iterations and a tighter
  threshold form finding returns the very same form. *)
Theorem C95_final : forall d tmax eta verbose form tmax' eta' verbose', reachable d -> ready d -> nonzero_trails d ->
  static_equilibrium d None tmax eta verbose = Ok form -> balanced form ->
  tmax < tmax' -> (0 <= eta' <= eta)%R ->
  static_equilibrium d None tmax' eta' verbose' = Ok form.
Proof. exact c95_final. Qed.
(** Being in static equilibrium and being at rest under further iterations are the same. *)
Theorem C95_rest : forall d tmax eta verbose form, reachable d -> ready d -> nonzero_trails d -> 1 <= tmax -> (0 <= eta)%R ->
  static_equilibrium d None tmax eta verbose = Ok form ->
  (balanced form <-> static_equilibrium d None (tmax + 1) 0%R false = Ok form).
Proof. exact c95_rest. Qed.
Print Assumptions C94_at_most_one.
Print Assumptions C94_form.
Print Assumptions C94_only.
Print Assumptions C95_final.
Print Assumptions C95_rest.

(** ** The hypotheses can be met *)

(** C94: the tension chain asks for a structure that can be written down by hand; so its
    form is known without running anything. *)
Example C94_nonvacuous : exists form, reachable rchain /\ ready rchain /\ direct_only rchain /\ nonzero_trails rchain
  /\ static_equilibrium rchain None 100 (/ 1000000)%R false = Ok form
  /\ structure rchain hand_chain /\ carrying rchain hand_chain
  /\ position form 3 = (V3 4 0 0)%R /\ reaction form 3 = (V3 1 0 0)%R.
Proof.
  destruct rchain_forms as [form E]. exists form.
  split; [apply rchain_reachable|]. split; [apply rchain_ready|]. split; [apply rchain_direct|].
  split; [apply rchain_nonzero|]. split; [exact E|]. split; [apply hand_structure|]. split; [apply hand_carrying|].
  destruct (C94_only rchain 100 (/ 1000000)%R false form hand_chain rchain_reachable rchain_ready rchain_direct rchain_nonzero E
              hand_structure hand_carrying) as [S _].
  assert (N : In 3 (nodes rchain)) by (replace (nodes rchain) with [0; 1; 2; 3] by (lazy; reflexivity); cbn; auto).
  destruct (S 3 N) as [<- <-]. split; [apply hand_positions|lazy; reflexivity].
Qed.

(** C95: two columns with an indirect deviation edge, whose form is in equilibrium. *)
Example C95_nonvacuous : exists eta form, (0 < eta)%R /\ reachable rcolumns /\ ready rcolumns /\ nonzero_trails rcolumns
  /\ indirect_at rcolumns 1 = [(1, 3)]
  /\ static_equilibrium rcolumns None 100 eta false = Ok form /\ balanced form
  /\ static_equilibrium rcolumns None 1000 0%R true = Ok form.
Proof.
  destruct rcolumns_forms as (eta&form&P&E). exists eta, form. assert (B := rcolumns_balanced eta form E).
  split; [exact P|]. split; [apply rcolumns_reachable|]. split; [apply rcolumns_ready|].
  split; [apply rcolumns_nonzero|]. split; [apply rcolumns_indirect|]. split; [exact E|]. split; [exact B|].
  apply (C95_final rcolumns 100 eta false form 1000 0%R true); auto;
    [apply rcolumns_reachable|apply rcolumns_ready|apply rcolumns_nonzero|lia|lra].
Qed.
