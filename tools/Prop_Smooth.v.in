(** * Small and smooth changes (C102)

    Generated by tools/gen_props.py from the lemmas of SmoothThms.v, SmoothNpThms.v and WitnessSmooth.v.  The
    vocabulary is in SpecStatics.v, SpecEquilibrium.v, SpecUnique.v and SpecSmooth.v. *)

From Coq Require Import String List ZArith Bool Lia Reals Lra.
From Verif Require Import Py Num Diagram Topology Equilibrium History Fixtures SpecDiagram SpecTopology
  SpecEquilibrium SpecStatics RVec EqThms StaticsThms SpecUnique UniqueThms SpecSmooth SmoothThms SmoothNpThms EquilibriumNp
  Witness WitnessEq WitnessUnique WitnessSmooth.
Import ListNotations.
Open Scope Z_scope.

@thm c102_continuous
@thm c102_numpy
@thm c102_differentiable
@thm c102_jump_unloaded
@thm c102_jump_tolerance
@assume

(** ** The hypotheses can be met *)

(** The tension chain, with planes, meets all conditions; and pulled aside by a load across
    it, all positions, reactions and forces of its form have derivatives with respect to
    that load. *)
Example C102_nonvacuous : reachable rchain /\ ready rchain /\ direct_only rchain /\ nonzero_trails rchain
  /\ static_equilibrium rchain None 100 (/ 1000000)%R false = Ok (form_of rchain)
  /\ carrying rchain (form_of rchain) /\ definite rchain (form_of rchain) /\ apart rchain (form_of rchain)
  /\ load (chain_aside 2%R) 0 = (V3 (-1) 2 0)%R
  /\ smooth_forms chain_aside (fun x => form_of (chain_aside x)) 0%R.
Proof.
  split; [apply rchain_reachable|]. split; [apply rchain_ready|]. split; [apply rchain_direct|].
  split; [apply rchain_nonzero|]. split; [apply form_of_Ok; [apply rchain_reachable|apply rchain_ready|apply rchain_direct]|].
  split; [apply chain_carrying|]. split; [apply chain_definite|]. split; [apply chain_apart|]. split; [lazy; reflexivity|].
  assert (K := C102_differentiable chain_aside (fun x => form_of (chain_aside x)) 0%R). cbv beta in K. rewrite chain_aside_0 in K.
  apply K; [|apply rchain_direct|apply rchain_nonzero|apply chain_carrying|apply chain_definite|apply chain_apart|apply chain_smooth].
  exists 1%R. split; [lra|]. intros x _. split; [apply chain_aside_reachable|]. split; [apply chain_aside_ready|].
  split; [apply chain_aside_layout|]. exists 100, (/ 1000000)%R, false.
  apply form_of_Ok; [apply chain_aside_reachable|apply chain_aside_ready|apply chain_aside_direct].
Qed.
