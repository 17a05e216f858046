(** * Vocabulary of the Grasshopper properties *)

From Coq Require Import String List ZArith Bool.
From Verif Require Import Py Num Diagram Topology SpecDiagram.
Import ListNotations.
Open Scope Z_scope.

(** The items of a list input that are not None, in order *)
Definition connected {A} (l : list (option A)) : list A :=
  flat_map (fun o => match o with Some a => [a] | None => [] end) l.

(** The item number [i] of a list whose last item is repeated *)
Definition repeated {A} (l : list A) (i : nat) (a : A) : Prop :=
  nth_error l i = Some a \/ (List.length l <= i)%nat /\ exists l', l = l' ++ [a].

(** The value of an input: the one given, or the default if none is. *)
Definition setting {A} (x : option A) (default v : A) : Prop := x = Some v \/ (x = None /\ v = default).

(** The keys an input asks for: those given, or all if none are. *)
Definition chosen {A} (keys : option (list A)) (all sel : list A) : Prop :=
  (keys = Some sel /\ sel <> []) \/ ((keys = None \/ keys = Some []) /\ sel = all).

Section Spec.
  Context {T : Type} `{NumOps T}.
  Implicit Types (d : diagram T).

  (** The point is, after rounding to three decimals, an end of one of the lines. *)
  Definition meets (lines : list (line (T:=T))) (p : vec T) : Prop :=
    exists q, In q (flat_map line_ends lines) /\ rounded 3 q = rounded 3 p.

  (** [q] is the last load given at the point [p], or zero if there is none. *)
  Definition last_load (loads : list (vec T * vec T)) (p q : vec T) : Prop :=
    (exists pre p' post, loads = pre ++ (p', q) :: post /\ rounded 3 p' = rounded 3 p
       /\ forall p2 q2, In (p2, q2) post -> rounded 3 p2 <> rounded 3 p)
    \/ (q = vzero /\ forall p2 q2, In (p2, q2) loads -> rounded 3 p2 <> rounded 3 p).

  (** The diagram that a change ends with, or the exception it raises *)
  Definition outcome (change : eff (diagram T) unit) d : res (diagram T) :=
    match change d with (d', Ok _) => Ok d' | (_, Err e) => Err e end.

  (** The diagram made from the inputs, before its trails are traced *)
  Record drawn_from (lines : list (line (T:=T))) (loads : list (vec T * vec T)) (supports : list (vec T)) d : Prop := {
    (* one node per point, and the edges of the lines *)
    df_nodes : nodes d = nodes (assemble 3 lines);
    df_edges : same_edges (assemble 3 lines) d;
    df_lookup : forall r, node_key d r = node_key (assemble 3 lines) r;
    (* the loads and the supports are where they were given, and nowhere else *)
    df_each : forall n, In n (nodes d) -> exists p q t, node_get d n = Ok (mkNode p q vzero None t)
      /\ node_coordinates (assemble 3 lines) n = Ok p
      /\ node_key d (RXyz p) = Some n /\ last_load loads p q
      /\ ((exists p', In p' supports /\ rounded 3 p' = rounded 3 p) -> t = Some TSupport)
      /\ ((forall p', In p' supports -> rounded 3 p' <> rounded 3 p) -> t = None);
    (* no trails, and the default settings *)
    df_settings : same_settings empty_diagram d
  }.
End Spec.
