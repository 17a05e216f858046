(** * Vocabulary of statics, over the real numbers

    Only public queries of a diagram and textbook vector algebra are used here. *)

From Coq Require Import List ZArith Bool Reals.
From Verif Require Import Py Num Diagram Topology RVec.
Import ListNotations.
Open Scope R_scope.

(** The result of a query that is known to succeed. *)
Definition value {A} (dflt : A) (r : res A) : A := match r with Ok a => a | Err _ => dflt end.

(** Length and direction of a vector. *)
Definition magnitude (u : rvec) : R := sqrt (vx u * vx u + vy u * vy u + vz u * vz u).
Definition direction (u : rvec) : rvec :=
  V3 (vx u / magnitude u) (vy u / magnitude u) (vz u / magnitude u).

Section Spec.
  Implicit Types (f d : diagram R).

  Definition position f (n : Z) : rvec := value v0 (node_coordinates f n).
  Definition load f (n : Z) : rvec := value v0 (node_load f n).
  Definition reaction f (n : Z) : rvec := value v0 (reaction_force f n).
  Definition force f (e : ekey) : R := value 0 (edge_force f e).

  (** The other end of an edge of [n]. *)
  Definition far_end (e : ekey) (n : Z) : Z := if Z.eqb (fst e) n then snd e else fst e.

  (** The edges that meet at [n]. *)
  Definition incident f (n : Z) : list ekey :=
    filter (fun e : ekey => Z.eqb (fst e) n || Z.eqb (snd e) n) (edges f).

  (** The force an edge exerts on its end [n]: towards the other end if it is in
      tension (positive), away from it if in compression (negative). *)
  Definition pull f (n : Z) (e : ekey) : rvec :=
    force f e *v direction (position f (far_end e n) -v position f n).

  (** The unbalanced force at a node. *)
  Definition unbalanced f (n : Z) : rvec :=
    load f n +v reaction f n +v vsum (map (pull f n) (incident f n)).

  (** Static equilibrium. *)
  Definition balanced f : Prop := forall n, In n (nodes f) -> unbalanced f n = v0.

  (** The distance between the ends of an edge. *)
  Definition span f (e : ekey) : R := magnitude (position f (snd e) -v position f (fst e)).

  (** The input length of every trail edge is not zero. *)
  Definition nonzero_trails d : Prop :=
    forall e l, In e (trail_edges d) -> edge_length_2 d e = Ok l -> l <> 0.

  (** The indirect deviation edges of [n]. *)
  Definition indirect_at d (n : Z) : list ekey :=
    filter (fun e : ekey => (Z.eqb (fst e) n || Z.eqb (snd e) n)
                            && value false (is_indirect_deviation_edge d e)) (edges d).
End Spec.

(** Sum of a list of real numbers. *)
Definition rsum (l : list R) : R := fold_right Rplus 0 l.

(** The moment about [o] of force [q] applied at [p]. *)
Definition moment (o p q : rvec) : rvec := cross (p -v o) q.

(** [p] lies on the plane through [o] with normal [nrm]. *)
Definition on_plane (p o nrm : rvec) : Prop := dot nrm (p -v o) = 0.
