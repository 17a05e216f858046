(** * What the optimizer prints, and how objects describe themselves (C104)

    Generated by tools/gen_props.py from the lemmas of PrintThms.v and WitnessPrint.v.
    The vocabulary is in SpecTopology.v, SpecEquilibrium.v, SpecOptimizer.v and SpecReport.v. *)

From Coq Require Import String List ZArith Bool Lia Reals Lra Floats.
From Verif Require Import Py Num Diagram Topology Equilibrium History Fixtures SpecDiagram SpecTopology SpecEquilibrium
  Constraints Optimizer SpecOptimizer Messages SolveOut SpecReport PrintThms Witness WitnessEq WitnessOpt WitnessPrint.
Import ListNotations.
Open Scope Z_scope.

Section Report.
  Context {T : Type} `{NumOps T}.
  Implicit Types (d : diagram T) (o : optimizer T).

@thm c104_same
@thm c104_report
@thm c104_true
@thm c104_optimizer
@thm c104_status_partial
@thm c104_topology
@thm c104_form
End Report.

@thm c104_edge
@thm c104_refuted
@assume

(** ** The hypotheses can be met *)

(** A run on the braced tower that is asked to print: the solver tries two points and returns the first. *)
Example C104_nonvacuous : exists g ls o' d' form,
  solve_out no_ad goes_back "SLSQP" "FD" 0x1p-20%float 100 None None 100 neps6 true (tower_optimizer, float_tower) = (ls, ((o', d'), Ok form))
  /\ o_norm o' = Some g
  /\ exists x, ls = [Rule; Started "SLSQP"; Sizes 4 2; ByDifferences 0x1p-20%float; EndedCorrectly; RunningTime; Evaluations 2; FinalValue x;
        NormOfGradient g; Status "NLOPT_SUCCESS"; Rule].
Proof.
  destruct (solve_out no_ad goes_back "SLSQP" "FD" 0x1p-20%float 100 None None 100 neps6 true (tower_optimizer, float_tower))
    as [ls [[o' d'] r]] eqn:E.
  assert (A : exists form, r = Ok form).
  { change r with (snd (snd (ls, ((o', d'), r)))). rewrite <- E. eexists. vm_compute. reflexivity. }
  destruct A as [form ->].
  assert (B : exists g x, ls = [Rule; Started "SLSQP"; Sizes 4 2; ByDifferences 0x1p-20%float; EndedCorrectly;
     RunningTime; Evaluations 2; FinalValue x; NormOfGradient g; Status "NLOPT_SUCCESS"; Rule]).
  { change ls with (fst (ls, ((o', d'), @Ok (diagram float) form))). rewrite <- E. do 2 eexists. vm_compute. reflexivity. }
  destruct B as (g&x&B). exists g, ls, o', d', form. split; [reflexivity|]. split; [|exists x; exact B].
  destruct (C104_true _ _ _ _ _ _ _ _ _ _ _ _ _ _ _ _ _ E) as (_&_&_&N&_). apply N. rewrite B. cbn. tauto.
Qed.

(** A topology and a form that describe themselves. *)
Example C104_topology_nonvacuous : exists c, topology_repr float_tower = Ok c /\ In ("Trail edges"%string, 4) c.
Proof. eexists. split; [vm_compute; reflexivity|]. vm_compute. tauto. Qed.
