(** * Vocabulary: what form finding says *)

From Coq Require Import List ZArith.
From Verif Require Import Py Num Diagram Messages.
Import ListNotations.

(** How often the callback is called. *)
Definition calls (ms : list message) : nat := length (filter (fun x => match x with Called => true | _ => false end) ms).

(** A warning about an edge. *)
Definition warns (x : message) (e : ekey) : Prop := x = NoIntersection e \/ x = Flipped e.
