(** * What a user expects of a solver in another process

    The words in which the property about solving through a proxy is stated. *)

From Coq Require Import String List ZArith Bool.
From Verif Require Import Py Num Diagram Constraints Optimizer Serialize SpecSerialize Files Remote.
Import ListNotations.
Open Scope Z_scope.

(** Two computations on objects of two kinds do the same: [h] takes an object of the one kind to
    the corresponding object of the other. *)
Definition follows {S S' A : Type} (h : S -> S') (m : eff S A) (m' : eff S' A) : Prop :=
  forall s, m' (h s) = (h (fst (m s)), snd (m s)).

Section SpecRemote.
  Context {T : Type} `{NumOps T}.

  (** Automatic differentiation only calls the function it is given: it does not look at the
      objects on which the function works. *)
  Definition only_calls (ad : differentiation T) : Prop :=
    forall (S S' : Type) (h : S -> S') f f', (forall x, follows h (f x) (f' x)) -> forall x, follows h (ad S f x) (ad S' f' x).

  (** The key and the target of a constraint are of the kind its class is for. *)
  Definition usable (c : cobj T) : Prop := exists g, goal_of c = Ok g.

  (** The same constraint with the coordinates of its target in a plain list *)
  Definition plainly (c : cobj T) : cobj T :=
    mkCobj (co_class c) (co_key c)
      (match co_target c with
       | GPoint p | GVector p => Plain [p]
       | GLine a b | GPlane a b => Plain [a; b]
       | GPolyline l => Plain l
       | t => t
       end) (co_weight c).

  (** The target is a compas geometry object or a finite number. *)
  Definition can_travel (c : cobj T) : Prop := storable (co_target c).
End SpecRemote.
