(** * The finite-difference gradient and the derivatives of the penalty (C103)

    Generated by tools/gen_props.py from the lemmas of GradientThms.v and WitnessGradient.v.
    The vocabulary is in SpecStatics.v, SpecEquilibrium.v, SpecOptimizer.v, SpecUnique.v,
    SpecSmooth.v, SpecConstraints.v and SpecGradient.v. *)

From Coq Require Import String List ZArith Bool Lia Reals Lra.
From Verif Require Import Py Num Diagram Topology Equilibrium History Fixtures SpecDiagram SpecTopology
  SpecEquilibrium SpecStatics RVec EqThms StaticsThms Constraints Optimizer SpecOptimizer SpecUnique UniqueThms SpecSmooth SmoothThms
  SpecGradient GradientThms Witness WitnessEq WitnessUnique WitnessSmooth WitnessGradient.
Import ListNotations.
Open Scope Z_scope.

@thm c103_gradient
@thm c103_jump
@thm c103_kink
@assume

(** ** The hypotheses can be met *)

(** The tension chain with three variables (a load, a coordinate of the origin, a length) and eight goals, one of each kind. *)
Example C103_nonvacuous : exists gr, List.length gr = 3%nat
  /\ forall epsilon, (0 < epsilon)%R -> exists delta, (0 < delta)%R /\ forall h, h <> 0%R -> (Rabs h < delta)%R ->
       exists ds, Forall2 (fun a b => (Rabs (a - b) < epsilon)%R) ds gr
         /\ snd (grad_finite_differences (optimize_form chain_optimizer 100 (/ 1000000)%R) h chain_variables [5; 5; 5]%R rchain) = Ok ds.
Proof.
  destruct chain_problem as (B1&B2&B3&B4&B5).
  destruct (C103_gradient chain_optimizer 100 (/ 1000000)%R rchain chain_variables rchain (form_of rchain) B1 B2 B3 B4 B5
    rchain_reachable rchain_ready rchain_direct ltac:(lia) ltac:(lra) chain_update
    (form_of_Ok rchain rchain_reachable rchain_ready rchain_direct) rchain_nonzero chain_carrying chain_definite
    (chain_apart (form_of rchain)) chain_smooth_goals) as (gr&L&_&T).
  exists gr. split; [exact L|]. intros epsilon P. destruct (T epsilon P) as (delta&Pd&Hd). exists delta. split; [exact Pd|].
  intros h Nh Lh. destruct (Hd h Nh Lh) as (ds&Fd&Ed). exists ds. split; [exact Fd|].
  specialize (Ed [] [5; 5; 5]%R eq_refl). rewrite after_none in Ed. exact Ed.
Qed.
