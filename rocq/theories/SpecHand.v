(** * Vocabulary of editing attributes by hand *)

From Coq Require Import List ZArith Bool.
From Verif Require Import Py Num Diagram Topology History Optimizer.
Import ListNotations.
Open Scope Z_scope.

(** The call sets one of the quantities [S]: the coordinates or the load of a node, of
    which one component is in [S], the force or the length of an edge. *)
Definition sets {T} (S : list slot) (c : op T) : Prop :=
  match c with
  | OpSetCoords n _ => exists a, In a [AX; AY; AZ] /\ In (NodeSlot n a) S
  | OpAddLoad (RKey n) _ => exists a, In a [AQX; AQY; AQZ] /\ In (NodeSlot n a) S
  | OpSetForce e _ => In (EdgeSlot e AForce) S
  | OpSetLength e _ => In (EdgeSlot e ALength) S
  | _ => False
  end.
