(** * What serialization should keep

    A user writes an object's data, possibly as JSON text, and later makes a new
    object of the same class from it. *)

From Coq Require Import String List ZArith Bool.
From Verif Require Import Py Num Diagram Optimizer Constraints Serialize.
Import ListNotations.

Section SpecSerialize.
  Context {T : Type} `{NumOps T}.

  (** The data dictionary is read as it was written, or from JSON text. *)
  Definition carried (written read : dict string (pyval T)) : Prop :=
    read = written \/ read = json_dict written.

  (** A new parameter made from the data of [p] is [p] again. *)
  Definition parameter_survives (p : pobj T) : Prop :=
    exists d, parameter_data p = Ok d
      /\ forall d', carried d d' -> parameter_from_data (po_class p) d' = Ok p.

  (** A new constraint made from the data of [c] is [c] again. *)
  Definition constraint_survives (c : cobj T) : Prop :=
    exists d, constraint_data c = Ok d
      /\ forall d', carried d d' -> constraint_from_data (co_class c) d' = Ok c.

  (** Node keys and edge keys *)
  Definition is_key (k : pyval T) : Prop :=
    (exists n, k = VInt n) \/ (exists u v, k = VTuple [u; v]).

  (** Does the class take a number, and is the target one? *)
  Definition fits (c : cobj T) : Prop :=
    match co_target c with
    | Number _ => co_class c = CTrailForce \/ co_class c = CLength
    | _ => co_class c <> CTrailForce /\ co_class c <> CLength
    end.

  (** A compas geometry object or a finite number *)
  Definition storable (t : target T) : Prop :=
    match t with
    | Plain _ => False
    | Number x => finite x = true
    | _ => True
    end.
End SpecSerialize.
