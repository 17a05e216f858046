(** * What a user expects of a diagram read from a file

    The words in which the property about files is stated. *)

From Coq Require Import List ZArith Bool.
From Verif Require Import Py Num Diagram Topology History Equilibrium Files.
Import ListNotations.
Open Scope Z_scope.

Section SpecFiles.
  Context {T : Type} `{NumOps T}.

  (** An object and a diagram have the same nodes, edges, neighbours, lookup table and
      settings, and the same trails and auxiliary trails in the same order.  The same edges are
      auxiliary. *)
  Definition same_contents (o : object T) (d : diagram T) : Prop :=
    (d_node (o_base o) = d_node d /\ d_edge (o_base o) = d_edge d /\ d_adj (o_base o) = d_adj d)
    /\ (d_max (o_base o) = d_max d /\ d_gkey (o_base o) = d_gkey d /\ d_tol (o_base o) = d_tol d)
    /\ (d_aux_length (o_base o) = d_aux_length d /\ d_aux_vector (o_base o) = d_aux_vector d)
    /\ o_all_trails o = map snd (trails d)
    /\ o_auxiliary_trails o = map snd (auxiliary_trails d)
    /\ (forall e, o_is_auxiliary_trail_edge o e = is_auxiliary_trail_edge d e).

  (** Form finding gives the same form, or raises the same exception. *)
  Definition same_forms (o : object T) (d : diagram T) : Prop :=
    forall kmax tmax eta verbose,
      o_static_equilibrium o kmax tmax eta verbose = static_equilibrium d kmax tmax eta verbose.

  (** Asking for a trail by its key gives the same answer. *)
  Definition same_trails (o : object T) (d : diagram T) : Prop :=
    forall key, o_trail o key = trail d key.

  (** What each call of a history gave *)
  Fixpoint answers (d : diagram T) (cs : list (op T)) : list (res unit) :=
    match cs with
    | [] => []
    | c :: cs => snd (call c d) :: answers (fst (call c d)) cs
    end.

  (** A call that asks for a trail by its key *)
  Definition names_trail (c : op T) : Prop :=
    match c with OpShiftTrail _ _ => True | _ => False end.
End SpecFiles.
