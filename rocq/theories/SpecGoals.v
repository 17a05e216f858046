(** * Vocabulary of the constraint and parameter components, over the real numbers *)

From Coq Require Import List ZArith Bool Reals.
From Verif Require Import Py Num Diagram Equilibrium Constraints Optimizer RVec SpecStatics SpecConstraints.
Import ListNotations.
Open Scope R_scope.

(** In the states [S] the constraint is worth [w] times the square of how far the state is from what is asked, [far] *)
Definition charges (S : eqstate R -> Prop) (c : constraint R) (w : R) (far : eqstate R -> R -> Prop) : Prop :=
  forall st x, S st -> (penalty st c = Ok x <-> exists y, far st y /\ x = w * (y * y)).

(** All states; the states where the edge has a direction *)
Definition any_state (st : eqstate R) : Prop := True.
Definition directed (e : ekey) (st : eqstate R) : Prop :=
  forall p q, node_at st (fst e) p -> node_at st (snd e) q -> p <> q.

(** The parameter starts at the value of the quantity [q] in the diagram it is given, and may go as far as [low] below it
    and [up] above it, signs disregarded, or anywhere if these are not given. *)
Definition varies (p : parameter R) (q : diagram R -> res R) (low up : option R) : Prop :=
  forall d x, q d = Ok x -> start_value d p = Ok x
    /\ bound_low d p = Ok (option_map (fun b => x - Rabs b) low)
    /\ bound_up d p = Ok (option_map (fun b => x + Rabs b) up).
