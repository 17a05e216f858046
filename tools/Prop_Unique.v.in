(** * The form is the structure that the topology asks for (C94, C95)

    Generated by tools/gen_props.py from the lemmas of UniqueThms.v and RestThms.v.  The
    vocabulary is in SpecStatics.v, SpecEquilibrium.v and SpecUnique.v. *)

From Coq Require Import String List ZArith Bool Lia Reals Lra.
From Verif Require Import Py Num Diagram Topology Equilibrium History Fixtures SpecDiagram SpecTopology
  SpecEquilibrium SpecStatics RVec EqThms StaticsThms SpecUnique UniqueThms RestThms Witness WitnessEq WitnessUnique.
Import ListNotations.
Open Scope Z_scope.

Implicit Types (d g form : diagram R).

@thm c94_at_most_one
@thm c94_form
@thm c94_only
@thm c95_final
@thm c95_rest
@assume

(** ** The hypotheses can be met *)

(** C94: the tension chain asks for a structure that can be written down by hand; so its
    form is known without running anything. *)
Example C94_nonvacuous : exists form, reachable rchain /\ ready rchain /\ direct_only rchain /\ nonzero_trails rchain
  /\ static_equilibrium rchain None 100 (/ 1000000)%R false = Ok form
  /\ structure rchain hand_chain /\ carrying rchain hand_chain
  /\ position form 3 = (V3 4 0 0)%R /\ reaction form 3 = (V3 1 0 0)%R.
Proof.
  destruct rchain_forms as [form E]. exists form.
  split; [apply rchain_reachable|]. split; [apply rchain_ready|]. split; [apply rchain_direct|].
  split; [apply rchain_nonzero|]. split; [exact E|]. split; [apply hand_structure|]. split; [apply hand_carrying|].
  destruct (C94_only rchain 100 (/ 1000000)%R false form hand_chain rchain_reachable rchain_ready rchain_direct rchain_nonzero E
              hand_structure hand_carrying) as [S _].
  assert (N : In 3 (nodes rchain)) by (replace (nodes rchain) with [0; 1; 2; 3] by (lazy; reflexivity); cbn; auto).
  destruct (S 3 N) as [<- <-]. split; [apply hand_positions|lazy; reflexivity].
Qed.

(** C95: two columns with an indirect deviation edge, whose form is in equilibrium. *)
Example C95_nonvacuous : exists eta form, (0 < eta)%R /\ reachable rcolumns /\ ready rcolumns /\ nonzero_trails rcolumns
  /\ indirect_at rcolumns 1 = [(1, 3)]
  /\ static_equilibrium rcolumns None 100 eta false = Ok form /\ balanced form
  /\ static_equilibrium rcolumns None 1000 0%R true = Ok form.
Proof.
  destruct rcolumns_forms as (eta&form&P&E). exists eta, form. assert (B := rcolumns_balanced eta form E).
  split; [exact P|]. split; [apply rcolumns_reachable|]. split; [apply rcolumns_ready|].
  split; [apply rcolumns_nonzero|]. split; [apply rcolumns_indirect|]. split; [exact E|]. split; [exact B|].
  apply (C95_final rcolumns 100 eta false form 1000 0%R true); auto;
    [apply rcolumns_reachable|apply rcolumns_ready|apply rcolumns_nonzero|lia|lra].
Qed.
