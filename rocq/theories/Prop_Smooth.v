(** * Small and smooth changes (C102)

    Generated by tools/gen_props.py from the lemmas of SmoothThms.v, SmoothNpThms.v and WitnessSmooth.v.  The
    vocabulary is in SpecStatics.v, SpecEquilibrium.v, SpecUnique.v and SpecSmooth.v. *)

From Coq Require Import String List ZArith Bool Lia Reals Lra.
From Verif Require Import Py Num Diagram Topology Equilibrium History Fixtures SpecDiagram SpecTopology
  SpecEquilibrium SpecStatics RVec EqThms StaticsThms SpecUnique UniqueThms SpecSmooth SmoothThms SmoothNpThms EquilibriumNp
  Witness WitnessEq WitnessUnique WitnessSmooth.
Import ListNotations.
Open Scope Z_scope.

(** Form finding is continuous: however small the change of the form may be, there is a
  bound on the changes of the input below which the form changes no more. *)
Theorem C102_continuous : forall d tmax eta verbose form, reachable d -> ready d -> direct_only d -> nonzero_trails d ->
  static_equilibrium d None tmax eta verbose = Ok form -> carrying d form -> definite d form -> apart d form ->
  forall epsilon, (0 < epsilon)%R -> exists delta, (0 < delta)%R
    /\ forall d' tmax' eta' verbose' form', reachable d' -> ready d' -> same_layout d d' -> similar_inputs delta d d' ->
       static_equilibrium d' None tmax' eta' verbose' = Ok form' -> similar_forms epsilon d form form'.
Proof. exact c102_continuous. Qed.
(** The array program is continuous too, and near such a topology it is the reference
  program: it fails, or finds the same form, for the same inputs. *)
Theorem C102_numpy : forall d tmax eta verbose form, reachable d -> ready d -> direct_only d -> nonzero_trails d ->
  static_equilibrium d None tmax eta verbose = Ok form -> carrying d form -> definite d form -> apart d form ->
  forall epsilon, (0 < epsilon)%R -> exists delta, (0 < delta)%R
    /\ forall d' tmax' eta' verbose', reachable d' -> ready d' -> same_layout d d' -> similar_inputs delta d d' ->
       static_equilibrium_numpy d' tmax' eta' verbose' = static_equilibrium d' None tmax' eta' verbose'
       /\ forall form', static_equilibrium_numpy d' tmax' eta' verbose' = Ok form' -> similar_forms epsilon d form form'.
Proof. exact c102_numpy. Qed.
(** The form of a topology whose inputs depend on a number has derivatives wherever the
  inputs have. *)
Theorem C102_differentiable : forall (D F : R -> diagram R) (s : R),
  (exists delta, (0 < delta)%R /\ forall x, (Rabs (x - s) < delta)%R -> reachable (D x) /\ ready (D x) /\ same_layout (D s) (D x)
     /\ exists tmax eta verbose, static_equilibrium (D x) None tmax eta verbose = Ok (F x)) ->
  direct_only (D s) -> nonzero_trails (D s) -> carrying (D s) (F s) -> definite (D s) (F s) -> apart (D s) (F s) ->
  smooth_inputs D s -> smooth_forms D F s.
Proof. exact c102_differentiable. Qed.
(** Without the condition that every trail edge carries a force, the form may jump: some
  topology that meets all other conditions has neighbours as close as one likes whose
  forms are far away. *)
Theorem C102_jump_unloaded : exists d form, reachable d /\ ready d /\ direct_only d /\ nonzero_trails d
  /\ static_equilibrium d None 100 (/ 1000000)%R false = Ok form /\ definite d form /\ apart d form
  /\ forall delta, (0 < delta)%R -> exists d' form', reachable d' /\ ready d' /\ same_layout d d' /\ similar_inputs delta d d'
     /\ static_equilibrium d' None 100 (/ 1000000)%R false = Ok form' /\ ~ similar_forms (/ 2) d form form'.
Proof. exact c102_jump_unloaded. Qed.
(** The same without the condition that trail edges do not meet their planes at the
  tolerance. *)
Theorem C102_jump_tolerance : exists d form, reachable d /\ ready d /\ direct_only d /\ nonzero_trails d
  /\ static_equilibrium d None 100 (/ 1000000)%R false = Ok form /\ carrying d form /\ apart d form
  /\ forall delta, (0 < delta)%R -> exists d' form', reachable d' /\ ready d' /\ same_layout d d' /\ similar_inputs delta d d'
     /\ static_equilibrium d' None 100 (/ 1000000)%R false = Ok form' /\ ~ similar_forms (/ 2) d form form'.
Proof. exact c102_jump_tolerance. Qed.
Print Assumptions C102_continuous.
Print Assumptions C102_numpy.
Print Assumptions C102_differentiable.
Print Assumptions C102_jump_unloaded.
Print Assumptions C102_jump_tolerance.

(** ** The hypotheses can be met *)

(** The tension chain, with planes, meets all conditions; and pulled aside by a load across
    it, all positions, reactions and forces of its form have derivatives with respect to
    that load. *)
Example C102_nonvacuous : reachable rchain /\ ready rchain /\ direct_only rchain /\ nonzero_trails rchain
  /\ static_equilibrium rchain None 100 (/ 1000000)%R false = Ok (form_of rchain)
  /\ carrying rchain (form_of rchain) /\ definite rchain (form_of rchain) /\ apart rchain (form_of rchain)
  /\ load (chain_aside 2%R) 0 = (V3 (-1) 2 0)%R
  /\ smooth_forms chain_aside (fun x => form_of (chain_aside x)) 0%R.
Proof.
  split; [apply rchain_reachable|]. split; [apply rchain_ready|]. split; [apply rchain_direct|].
  split; [apply rchain_nonzero|]. split; [apply form_of_Ok; [apply rchain_reachable|apply rchain_ready|apply rchain_direct]|].
  split; [apply chain_carrying|]. split; [apply chain_definite|]. split; [apply chain_apart|]. split; [lazy; reflexivity|].
  assert (K := C102_differentiable chain_aside (fun x => form_of (chain_aside x)) 0%R). cbv beta in K. rewrite chain_aside_0 in K.
  apply K; [|apply rchain_direct|apply rchain_nonzero|apply chain_carrying|apply chain_definite|apply chain_apart|apply chain_smooth].
  exists 1%R. split; [lra|]. intros x _. split; [apply chain_aside_reachable|]. split; [apply chain_aside_ready|].
  split; [apply chain_aside_layout|]. exists 100, (/ 1000000)%R, false.
  apply form_of_Ok; [apply chain_aside_reachable|apply chain_aside_ready|apply chain_aside_direct].
Qed.
