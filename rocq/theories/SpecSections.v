(** * Vocabulary of the properties of parts of a structure

    Only public queries of a diagram and the vocabulary of statics are used here. *)

From Coq Require Import List ZArith Bool Reals.
From Verif Require Import Py Num Diagram Topology RVec SpecStatics.
Import ListNotations.
Open Scope Z_scope.

Section Spec.
  Implicit Types (f d : diagram R) (S : list Z) (e : ekey).

  (** A part of a structure: some of its nodes *)
  Definition part f S : Prop := NoDup S /\ incl S (nodes f).

  (** The edges that are cut to isolate the part: one of their ends is in it and the other is not *)
  Definition cut f S : list ekey :=
    filter (fun e : ekey => xorb (existsb (Z.eqb (fst e)) S) (existsb (Z.eqb (snd e)) S)) (edges f).

  (** The end of a cut edge that is in the part *)
  Definition inner_end S e : Z := if existsb (Z.eqb (fst e)) S then fst e else snd e.

  (** What acts on the part from outside: its loads, its reactions and the pulls of the cut edges *)
  Definition acting_on f S : rvec :=
    vsum (map (load f) S) +v vsum (map (reaction f) S) +v vsum (map (fun e => pull f (inner_end S e) e) (cut f S)).

  (** The moment of all that about the point [o] *)
  Definition moment_on f S (o : rvec) : rvec :=
    vsum (map (fun n => moment o (position f n) (load f n)) S)
    +v vsum (map (fun n => moment o (position f n) (reaction f n)) S)
    +v vsum (map (fun e => moment o (position f (inner_end S e)) (pull f (inner_end S e) e)) (cut f S)).

  (** The loads and reactions of a part, and their moment *)
  Definition resultant f S : rvec := vsum (map (load f) S) +v vsum (map (reaction f) S).
  Definition resultant_moment f S (o : rvec) : rvec :=
    vsum (map (fun n => moment o (position f n) (load f n)) S)
    +v vsum (map (fun n => moment o (position f n) (reaction f n)) S).

  (** The nodes with sequences up to [k] *)
  Definition levels_to d (k : Z) : list Z :=
    filter (fun n => match node_sequence d n with Ok s => s <=? k | Err _ => false end) (nodes d).

  (** The rate at which an edge gets longer if its ends move by [w] *)
  Definition elongation f (w : Z -> rvec) e : R :=
    dot (direction (position f (snd e) -v position f (fst e))) (w (snd e) -v w (fst e)).
End Spec.
