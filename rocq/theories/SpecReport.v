(** * Vocabulary: what the optimizer prints *)

From Coq Require Import String List ZArith.
From Verif Require Import Py Num Diagram Topology Optimizer SpecOptimizer SolveOut.
Import ListNotations.
Open Scope Z_scope.

Section Spec.
  Context {T : Type} `{NumOps T}.

  (** The lines [ls] show results, and these are the results the optimizer [o] holds. *)
  Definition shows_results (o : optimizer T) (ls : list (printed T)) : Prop :=
    exists n x g s, o_evals o = Some n /\ o_penalty o = Some x /\ o_norm o = Some g /\ o_status o = Some s
      /\ ls = [RunningTime; Evaluations n; FinalValue x; NormOfGradient g; Status s; Rule].

  (** The first lines of a run: the algorithm, the numbers of parameters and constraints, the gradient method *)
  Definition introduction (o : optimizer T) (algorithm grad : string) (h : T) (ls : list (printed T)) : Prop :=
    ls = [Rule; Started algorithm; Sizes (number_of_parameters o) (number_of_constraints o);
          if String.eqb grad "AD" then ByDifferentiation else ByDifferences h].
End Spec.
